(** scc_sc_clustering (src/nng_clustering.c) computes what ScSpec says. *)

From stdpp Require Import prelude list sorting.
From Coq Require Import NArith ZArith.
From Verif Require Import Base World Mem Digraph DigraphRep DigraphOps Float Spi Options Arrays GraphSpec SeedSpec AssignSpec Seeds SeedsProof SeedsExcl
  Nng NngGraph NngSize NngAssign NngStage NngEst TypeCount TypeRows NngType Batch BatchSpec BatchProof OptionsProof NngClustering ScSpec.

(** ** Lists *)

Lemma adj_ge g v : length g <= v -> adj g v = [].
Proof. intros H. unfold adj. by rewrite lookup_ge_None_2. Qed.

Lemma prim_ok_options o n : options_valid o n -> options_sane o n -> prim_ok n (o_len_prim o) (o_prim o).
Proof.
  intros Hv Hs. unfold prim_ok, prim_list. pose proof (ov_prim _ _ Hv) as Hp. pose proof (ov_size _ _ Hv). destruct (o_prim o) as [p|] eqn:Ep.
  - destruct (os_prim _ _ Hs p Ep) as [H1 H2]. destruct Hp as [H3 H4]. splits; auto.
    intros E. apply (f_equal length) in E. rewrite take_length in E. simpl in E. lia.
  - splits; auto.
    + intros E. apply (f_equal length) in E. rewrite seq_length in E. simpl in E. lia.
    + apply seq_sorted.
    + apply Forall_forall. intros x Hx%elem_of_seq. lia.
Qed.

Lemma types_ok_options o n : options_valid o n -> options_sane o n -> 2 <= o_num_types o -> types_ok n (o_num_types o) (tcons_of o) (tlabels_of o).
Proof.
  intros Hv Hs Ht. destruct (ov_typed _ _ Hv Ht) as (_ & [tc Etc] & _ & [tl Etl]). unfold types_ok, tcons_of, tlabels_of. rewrite Etc, Etl. simpl.
  destruct (os_tlabels _ _ Hs tl Etl). pose proof (os_tcons _ _ Hs tc Etc). splits; auto. lia.
Qed.

(** A point from which a seed can be made. *)
Definition seedable (o : options) (n : nat) (G : geometry) (v : nat) : Prop :=
  v ∈ primary o n /\
  (if decide (o_num_types o < 2) then feasible G (seq 0 n) (o_size o) (srad_of o) v
   else typed_ok n (tlabels_of o) (tcons_of o) G (srad_of o) (o_num_types o) (o_size o) v).

Global Instance typed_ok_dec n tl tcons G rad nt size v : Decision (typed_ok n tl tcons G rad nt size v).
Proof. unfold typed_ok. unfold type_feasible. apply _. Defined.

Global Instance seedable_dec o n G v : Decision (seedable o n G v).
Proof. unfold seedable. destruct (decide (o_num_types o < 2)); apply _. Defined.

Section Graph.
Context {cfg : config} (o : options) (n : nat) (G : geometry).
Hypothesis (Hv : options_valid o n) (Hs : options_sane o n).

Lemma primary_lt v : v ∈ primary o n -> v < n.
Proof. intros H. destruct (prim_ok_options o n Hv Hs) as (_ & _ & _ & Hl). rewrite Forall_forall in Hl. by apply Hl. Qed.

Lemma nng_graph_len g : nng_graph cfg o n G g -> length g = n.
Proof. unfold nng_graph. destruct (decide (o_num_types o < 2)); [intros []; auto|intros [[] _]; auto]. Qed.

(** Rows of the graph. *)
Lemma nng_graph_row g v : nng_graph cfg o n G g -> seedable o n G v ->
  NoDup (v :: adj g v) /\ Forall (fun x => x < n) (adj g v) /\ o_size o - 1 <= length (adj g v) <= o_size o.
Proof.
  intros Hg [HvQ Hf]. pose proof (primary_lt v HvQ) as Hvn. pose proof (ov_size _ _ Hv). unfold nng_graph in Hg. destruct (decide (o_num_types o < 2)) as [Ht|Ht].
  - destruct (size_graph_row n G _ _ _ _ g v Hg) as (H1 & H2 & H3 & H4); auto; [lia|]. split; [by constructor|]. split; [done|lia].
  - destruct Hg as [Hg Hsum]. pose proof (tg_row _ _ _ _ _ _ _ _ _ _ Hg v HvQ Hf) as Hr.
    assert (o_num_types o <= length (tcons_of o)) as Hnt. { destruct (types_ok_options o n Hv Hs) as (_ & H1 & _); [lia|done]. }
    destruct (typed_adj_facts _ _ _ _ _ _ _ _ _ _ Hnt Hsum Hvn Hr) as (H1 & H2 & H3 & _). auto.
Qed.

Lemma nng_graph_none g v : nng_graph cfg o n G g -> ~ seedable o n G v -> adj g v = [].
Proof.
  unfold nng_graph, seedable. destruct (decide (o_num_types o < 2)); [intros []|intros [[] _]]; auto.
Qed.

Lemma nng_graph_seedable g v : nng_graph cfg o n G g -> adj g v <> [] <-> seedable o n G v.
Proof.
  intros Hg. split.
  - intros Hne. destruct (decide (seedable o n G v)) as [?|Hn]; [done|]. by rewrite (nng_graph_none g v Hg Hn) in Hne.
  - intros Hf E. destruct (nng_graph_row g v Hg Hf) as (_ & _ & H). rewrite E in H. pose proof (ov_size _ _ Hv). simpl in H. lia.
Qed.

Lemma nng_graph_nodup g : nng_graph cfg o n G g -> Forall (@NoDup nat) g.
Proof.
  intros Hg. apply Forall_forall. intros r Hr. apply elem_of_list_lookup in Hr as [v Hr].
  assert (adj g v = r) as Ha by (unfold adj; by rewrite Hr). destruct (decide (seedable o n G v)) as [Hf|Hf].
  - destruct (nng_graph_row g v Hg Hf) as (H & _). rewrite Ha in H. by apply NoDup_cons in H as [_ ?].
  - rewrite (nng_graph_none g v Hg Hf) in Ha. subst. constructor.
Qed.

Lemma nng_graph_irrefl g v : nng_graph cfg o n G g -> v ∉ adj g v.
Proof.
  intros Hg. destruct (decide (seedable o n G v)) as [Hf|Hf].
  - destruct (nng_graph_row g v Hg Hf) as (H & _). by apply NoDup_cons in H as [? _].
  - rewrite (nng_graph_none g v Hg Hf). apply not_elem_of_nil.
Qed.
End Graph.

(** ** Radii *)

Lemma seed_radius_of o : seed_radius o = srad_of o.
Proof. unfold seed_radius, srad_of, radius_arg. simpl. by destruct (o_srad o). Qed.

Lemma stage_radius_none um rm v o : rm <> RM_OTHER -> (o_srad o = RM_NO_RADIUS \/ o_srad o = RM_USE_SUPPLIED) ->
  (stage_radius um rm v (o_srad o) (o_srad_val o)).1 <> RM_USE_ESTIMATED -> forall avg,
  radius_arg (stage_radius um rm v (o_srad o) (o_srad_val o)) = radius_of um rm v (srad_of o) avg.
Proof.
  intros H1 H2 H3 avg. unfold stage_radius, radius_arg, radius_of, srad_of in *. destruct um, rm; simpl in *; try done; destruct H2 as [E|E]; rewrite E; done.
Qed.

Lemma stage_radius_est um rm v o avg r : rm <> RM_OTHER -> (o_srad o = RM_NO_RADIUS \/ o_srad o = RM_USE_SUPPLIED) ->
  use_estimate (stage_radius um rm v (o_srad o) (o_srad_val o)) avg = Some r -> radius_arg r = radius_of um rm v (srad_of o) avg.
Proof.
  intros H1 H2 H3. unfold use_estimate in H3. destruct (decide ((stage_radius um rm v (o_srad o) (o_srad_val o)).1 = RM_USE_ESTIMATED)) as [E|E].
  - destruct (d_gt avg d_zero); [|done]. injection H3 as <-. unfold stage_radius in E. unfold radius_arg, radius_of. simpl.
    destruct um, rm; simpl in *; try done; destruct H2 as [E2|E2]; rewrite E2 in E; done.
  - injection H3 as <-. by apply stage_radius_none.
Qed.

Lemma use_estimate_none r avg : use_estimate r avg = None -> d_gt avg d_zero = false.
Proof. unfold use_estimate. destruct (decide (r.1 = RM_USE_ESTIMATED)); [|done]. by destruct (d_gt avg d_zero). Qed.

(** ** From the graph to the clustering *)

(** Options with which every pointer returned by an allocation is checked before it
    is used: iscc_findseeds_exclusion, iscc_assign_by_nn_search and the array of
    primary points of scc_nng_clustering_batches are not reached. *)
Definition null_checked (o : options) : Prop :=
  (o_seed o = SM_BATCHES /\ o_prim o = None) \/
  (o_seed o <> SM_BATCHES /\ ~ is_exclusion (o_seed o) /\ o_sum o = UM_IGNORE /\ (o_pum o = UM_IGNORE \/ o_pum o = UM_ANY_NEIGHBOR)).

Section Sc.
Context (cfg : config) (Hcfg : config_ok cfg) (P : provider) (V : pview P) (ds : p_ds P) (n : nat) (G : geometry) (D : dist_fun).
Hypothesis (HP : provider_ok P V ds n G D).
Notation solid w := (no_fail w /\ provider_reliable P V ds n).
Notation holds := (holds cfg).

Context (o : options).
Hypothesis (Hv : options_valid o n) (Hs : options_sane o n).

(** What the clustering may be after a failure. *)
Definition failed_state (cl cl' : clustering) : Prop :=
  c_k cl' = c_k cl \/ exists L m, holds cl' L m /\ labels_lt m L /\ length L = n /\ m <> 0 /\ (N.of_nat m <= cl_max cfg)%N.

Lemma by_neighbors_lt g L k : labels_lt k L -> labels_lt k (by_neighbors g L).
Proof.
  intros H x i Hx. pose proof (lab_lt _ _ _ Hx) as Hl. rewrite by_neighbors_length in Hl. rewrite by_neighbors_lab in Hx by done.
  destruct (lab L x) as [j|] eqn:E; [injection Hx as <-; eauto|]. apply neighbor_label_Some in Hx as (y & _ & Hy). eauto.
Qed.

Definition labels_lk (lk : list nat) (cl cl' : clustering) (dg dg' : digraph) (w w' : world) : Prop :=
  forall x, cnt x (w_live w') + cnt x (arr_blk (c_label cl)) + cnt x (dg_blocks dg) =
            cnt x (arr_blk (c_label cl')) + cnt x lk + cnt x (w_live w) + cnt x (dg_blocks dg').

Lemma Msat_cluster_seeds (B : ub -> Prop) cl dg g sr ss sb r1 r2 w :
  dg_rep cfg dg g -> (forall x, cnt x (dg_blocks dg) + cnt x [sb] <= cnt x (w_live w)) ->
  nng_graph cfg o n G g -> seeds_spec cfg (o_seed o) g ss -> independent_maximal g ss -> ss <> [] ->
  c_n cl = n -> clu_ok cl -> seed_st cfg sr ss sb ->
  radius_arg r1 = radius_of (o_pum o) (o_prad o) (o_prad_val o) (srad_of o) (est_dist D g ss) ->
  radius_arg r2 = radius_of (o_sum o) (o_2rad o) (o_2rad_val o) (srad_of o) (est_dist D g ss) ->
  (no_fail w \/ (B NullPtr /\ B Oob /\ B Arith) \/ (o_sum o = UM_IGNORE /\ (o_pum o = UM_IGNORE \/ o_pum o = UM_ANY_NEIGHBOR))) ->
  Msat B (cluster_seeds cfg P cl ds dg o sr r1 r2) w (fun '(ec, cl', dg') w' =>
    wle w w' /\ clu_kept cl cl' /\
    (forall x, cnt x (w_live w') + cnt x (arr_blk (c_label cl)) + cnt x (dg_blocks dg) + cnt x [sb] =
            cnt x (arr_blk (c_label cl')) + cnt x (w_live w) + cnt x (dg_blocks dg')) /\
    ((ec = ER_OK /\ (w_err w' = w_err w \/ ~ solid w) /\ (exists L, sc_result cfg (~ solid w) o n G D g ss L (length ss) /\ holds cl' L (length ss))) \/
     (ec <> ER_OK /\ search_fail P V ds n w ec w' /\ failed_state cl cl'))).
Proof.
  intros H Hlive Hg Hspec Him Hne Hn Hok Hseed Hr1 Hr2 HB. pose proof (nng_graph_len o n G g Hg) as Hlen.
  assert (groups_ok n g ss) as Hgr.
  { rewrite <- Hlen. apply (groups_ok_intro cfg dg g ss H); [by eapply nng_graph_nodup| |done]. intros v. by eapply nng_graph_irrefl. }
  pose proof (prim_ok_options o n Hv Hs) as Hprim.
  destruct Hseed as (sc & Esr & Hsf & Hcnt & Hcap & Hsmax). assert (seed_st cfg sr ss sb) as Hseed by (exists sc; auto).
  unfold cluster_seeds. apply Msat_bind.
  eapply Msat_mono with (P := fun r w1 => wle w w1 /\ w_err w1 = w_err w /\
    match r with
    | None => own w1 [] w /\ c_label cl = None /\ ~ no_fail w
    | Some cl1 => clu_kept cl cl1 /\ c_k cl1 = c_k cl /\ c_n cl1 = n /\ (exists lb c0, c_label cl1 = Some (Arr lb c0) /\ length c0 = n) /\
        labels_own cl cl1 w w1 /\ (forall x, cnt x (w_live w) <= cnt x (w_live w1))
    end).
  { destruct (c_label cl) as [[lb c0]|] eqn:Ecl.
    - apply Msat_ret. split; [wl|]. split; [done|]. unfold clu_ok in Hok. rewrite Ecl in Hok. simpl in Hok. splits; auto.
      + constructor; auto. by rewrite Ecl.
      + exists lb, c0. split; [done|congruence].
      + unfold labels_own. intros x. lia.
    - apply Msat_bind, Msat_malloc_arr.
      + intros w5 L5 O5 E5 _ F5. apply Msat_ret. splits; auto.
      + intros w5 b L5 O5 E5 _. apply Msat_ret. rewrite Hn. splits; auto.
        * constructor; simpl; auto. rewrite Ecl. unfold fresh. rewrite replicate_length. auto.
        * eexists b, _. split; [done|]. unfold fresh. by rewrite replicate_length.
        * unfold labels_own. simpl. rewrite Ecl. simpl. intros x. specialize (O5 x). simpl in O5. lia.
        * intros x. specialize (O5 x). simpl in O5. lia. }
  intros [cl1|] w1 (L1 & E1 & H1).
  2:{ destruct H1 as (O1 & Ecl & Hnf). apply Msat_bind, Msat_free_arr; [rewrite Esr; blk|]. intros w2 L2 C2 E2 _. rewrite Esr in C2.
      apply Msat_bind, Msat_make_error__. intros w3 L3 O3 E3 _. apply Msat_ret. split; [wl|]. split.
      { constructor; simpl; auto. by rewrite Ecl. }
      split; [simpl; rewrite Ecl; blk|]. right. split; [done|]. split; [|left; done]. split; [by rewrite E3|auto]. }
  destruct H1 as (Hk1 & Hck1 & Hn1 & (lb & c0 & Hl1 & Hc0) & Hown1 & Hmono1). unfold labels_own in Hown1. rewrite Hl1 in Hown1.
  apply Msat_bind. eapply Msat_mono.
  { apply (Msat_make_clusters cfg Hcfg P V ds n G D HP B cl1 lb c0 sr ss sb dg g); auto.
    - blk.
    - destruct HB as [HB|HB]; [left|by right]. eapply no_fail_wle; [exact HB|]. wl. }
  intros [[ec cl'] dg'] w2 (L2 & C2 & L' & -> & Hres).
  apply Msat_bind, Msat_free_arr; [rewrite Esr; blk|]. intros w3 L3 C3 E3 _. rewrite Esr in C3. apply Msat_ret.
  assert (length L' = n /\ labels_lt (length ss) L') as [HL' HLt].
  { destruct Hres as [(_ & _ & Ha)|(_ & _ & [-> | ->])].
    - split.
      + destruct Ha as (La & Lb & Ha & Hb & Hc). assert (length La = n) as HLa.
        { destruct Ha as [-> |[_ ->]]; [|apply seed_labels_length]. destruct (uses_nng _ _); rewrite ?by_neighbors_length; apply seed_labels_length. }
        assert (forall um Sa T rad L1 L2, stage G um Sa ss T rad L1 L2 -> length L2 = length L1) as Hst.
        { intros um Sa T rad' L1' L2' Hst. destruct um; simpl in Hst; try (by subst); by destruct Hst. }
        assert (length Lb = n) as HLb. { destruct Hb as [Hb|[_ ->]]; [|done]. by rewrite (Hst _ _ _ _ _ _ Hb). }
        destruct Hc as [Hc|[_ ->]]; [|done]. by rewrite (Hst _ _ _ _ _ _ Hc).
      + destruct Ha as (La & Lb & Ha & Hb & Hc). assert (labels_lt (length ss) La) as HLa.
        { destruct Ha as [-> |[_ ->]]; [|apply seed_labels_lt]. destruct (uses_nng _ _); [apply by_neighbors_lt|]; apply seed_labels_lt. }
        assert (forall um Sa T rad L1 L2, stage G um Sa ss T rad L1 L2 -> labels_lt (length ss) L1 -> labels_lt (length ss) L2) as Hst.
        { intros um Sa T rad' L1' L2' Hst. destruct um; simpl in Hst; try (by subst); by eapply by_search_lt. }
        assert (labels_lt (length ss) Lb) as HLb. { destruct Hb as [Hb|[_ ->]]; [|done]. by eapply Hst. }
        destruct Hc as [Hc|[_ ->]]; [|done]. by eapply Hst.
    - split; [apply seed_labels_length|apply seed_labels_lt].
    - split; [rewrite by_neighbors_length; apply seed_labels_length|]. apply by_neighbors_lt, seed_labels_lt. }
  assert (holds (Clu (c_version cl1) n (length ss) (farr lb (enc cfg <$> L')) (c_ext cl1)) L' (length ss)) as Hh by (split; simpl; eauto).
  split; [wl|]. split.
  { destruct Hk1 as [K1 K2 K3]. constructor; simpl; auto. destruct (c_label cl) as [a|] eqn:Ecl; rewrite Hl1 in K3; simpl in *; rewrite !fmap_length.
    - destruct K3 as (? & ? & ?). splits; auto. congruence.
    - destruct K3. split; [congruence|done]. }
  split; [simpl; blk|].
  destruct Hres as [(-> & Herr & Ha)|(Hec & Hsf' & _)].
  - left. split; [done|]. split.
    { destruct Herr as [Herr|Herr]; [left; congruence|right]. intros HS. apply Herr. eapply solid_wle; [|exact HS]. wl. }
    exists L'. split; [|done]. constructor; auto. rewrite <- Hr1, <- Hr2.
    destruct Ha as (La & Lb & Ha & Hb & Hc). 
    assert (~ solid w1 -> ~ solid w) as Hss. { intros Hns HS. apply Hns. eapply solid_wle; [|exact HS]. wl. }
    exists La, Lb. splits; [destruct Ha as [?|[? ?]]|destruct Hb as [?|[? ?]]|destruct Hc as [?|[? ?]]]; auto.
  - right. split; [done|]. split.
    + eapply search_fail_wle; [exact L1|]. destruct Hsf' as [? ?]. split; [congruence|done].
    + right. exists L', (length ss). splits; auto. destruct ss; [done|]. simpl. lia.
Qed.

(** Why making clusters from the graph may fail. *)
Definition from_fail (g : list (list nat)) (w : world) (ec : ecode) : Prop :=
  (ec = ER_NO_MEMORY /\ ~ no_fail w) \/
  (ec = ER_DIST_SEARCH_ERROR /\ ~ solid w) \/
  (ec = ER_TOO_LARGE_PROBLEM /\
     ((cl_max cfg < N.of_nat n)%N \/ (is_exclusion (o_seed o) /\ too_many_arcs cfg (n * n) = true))) \/
  (ec = ER_NO_SOLUTION /\ exists ss, seeds_spec cfg (o_seed o) g ss /\ d_gt (est_dist D g ss) d_zero = false /\
     ((o_pum o <> UM_IGNORE /\ o_prad o = RM_USE_ESTIMATED) \/ (o_sum o <> UM_IGNORE /\ o_2rad o = RM_USE_ESTIMATED))).

Lemma stage_radius_used um rm v avg : rm <> RM_OTHER ->
  use_estimate (stage_radius um rm v (o_srad o) (o_srad_val o)) avg = None -> um <> UM_IGNORE /\ rm = RM_USE_ESTIMATED.
Proof.
  intros H1 H2. pose proof (ov_srad _ _ Hv) as H3. unfold use_estimate, stage_radius in H2. destruct um, rm; simpl in H2; try done;
    destruct H3 as [E|[E _]]; rewrite E in H2; done.
Qed.

Lemma Msat_from_nng (B : ub -> Prop) cl dg g w :
  dg_rep cfg dg g -> (forall x, cnt x (dg_blocks dg) <= cnt x (w_live w)) ->
  nng_graph cfg o n G g -> (exists v, seedable o n G v) -> o_seed o <> SM_BATCHES ->
  c_n cl = n -> clu_ok cl -> (N.of_nat n <= pi_max cfg)%N ->
  (no_fail w \/ (B NullPtr /\ B Oob /\ B Arith) \/ (~ is_exclusion (o_seed o) /\ (o_sum o = UM_IGNORE /\ (o_pum o = UM_IGNORE \/ o_pum o = UM_ANY_NEIGHBOR)))) ->
  Msat B (make_clustering_from_nng cfg P cl ds dg o) w (fun '(ec, cl', dg') w' =>
    wle w w' /\ clu_kept cl cl' /\
    (exists lk, labels_lk lk cl cl' dg dg' w w' /\
       (lk = [] \/ (ec <> ER_OK /\ is_exclusion (o_seed o) /\ exists v, v < n /\ adj g v = []))) /\
    ((ec = ER_OK /\ (w_err w' = w_err w \/ w_err w' = no_errst \/ ~ solid w) /\
        exists ss L, sc_result cfg (~ solid w) o n G D g ss L (length ss) /\ holds cl' L (length ss) /\ (N.of_nat (length ss) <= cl_max cfg)%N) \/
     (ec <> ER_OK /\ e_code (w_err w') = ec /\ from_fail g w ec /\ failed_state cl cl'))).
Proof.
  intros H Hlive Hg [v0 Hv0] Hsm Hn Hok Hpi HB. pose proof (nng_graph_len o n G g Hg) as Hlen. unfold make_clustering_from_nng.
  assert (is_nng_method (o_seed o)) as Hnm. { pose proof (ov_seed _ _ Hv). unfold is_nng_method, is_exclusion. destruct (o_seed o); first [by exfalso; auto | by auto 8]. }
  pose proof (ov_size _ _ Hv) as Hsize.
  assert (clu_kept cl cl) as Hkept. { constructor; auto. unfold clu_ok in Hok. destruct (c_label cl); auto. }
  apply Msat_bind. eapply Msat_mono.
  { apply (Msat_find_seeds cfg B dg g); auto; [by eapply nng_graph_nodup|by rewrite Hlen|]. intros Hx. destruct HB as [HB|[(HB & _)|[HB _]]]; [by left|right|done]. split; [done|lia]. }
  intros [ec sr] w1 (L1 & _ & Hgood & Hbad). simpl in Hgood, Hbad.
  destruct (decide (ec <> ER_OK)) as [Hec|Hec].
  { destruct (Hbad Hec) as ((_ & Hcode & Hwhy) & lk & O1 & Hlk). apply Msat_ret. split; [done|]. split; [done|]. split.
    - exists lk. split; [unfold labels_lk; blk|]. destruct Hlk as [?|[? Hlk]]; [by left|right]. rewrite Hlen in Hlk. auto.
    - right. splits; auto; [|by left]. rewrite Hlen in Hwhy. destruct Hwhy as [Hwhy|[? Hwhy]]; [by left|]. right. right. left. split; [done|]. tauto. }
  assert (ec = ER_OK) as -> by (destruct (decide (ec = ER_OK)); tauto). clear Hec Hbad. specialize (Hgood eq_refl).
  destruct Hgood as (ss & sb & O1 & E1 & Hseed & Hspec).
  assert (independent_maximal g ss) as Him. { destruct (seeds_spec_greedy _ _ _ _ Hspec) as (ord & Hp & ->). by apply greedy_independent_maximal. }
  assert (ss <> []) as Hne.
  { destruct Him as (_ & _ & Hm). destruct (Hm v0) as (s & u & Hs' & _); [rewrite Hlen; destruct Hv0; by eapply primary_lt|by eapply nng_graph_seedable|].
    intros ->. by apply elem_of_nil in Hs'. }
  pose proof Hseed as (sc & Esr & _ & _ & _ & Hmax).
  assert (forall r1 r2 w2, wle w1 w2 -> own w2 [] w1 -> w_err w2 = w_err w1 ->
    radius_arg r1 = radius_of (o_pum o) (o_prad o) (o_prad_val o) (srad_of o) (est_dist D g ss) ->
    radius_arg r2 = radius_of (o_sum o) (o_2rad o) (o_2rad_val o) (srad_of o) (est_dist D g ss) ->
    Msat B (cluster_seeds cfg P cl ds dg o sr r1 r2) w2 (fun '(ec, cl', dg') w' =>
    wle w w' /\ clu_kept cl cl' /\
    (exists lk, labels_lk lk cl cl' dg dg' w w' /\
       (lk = [] \/ (ec <> ER_OK /\ is_exclusion (o_seed o) /\ exists v, v < n /\ adj g v = []))) /\
    ((ec = ER_OK /\ (w_err w' = w_err w \/ w_err w' = no_errst \/ ~ solid w) /\
        exists ss L, sc_result cfg (~ solid w) o n G D g ss L (length ss) /\ holds cl' L (length ss) /\ (N.of_nat (length ss) <= cl_max cfg)%N) \/
     (ec <> ER_OK /\ e_code (w_err w') = ec /\ from_fail g w ec /\ failed_state cl cl')))) as Hfin.
  { intros r1 r2 w2 L2 O2 E2 Hr1 Hr2. eapply Msat_mono.
    { apply (Msat_cluster_seeds B cl dg g sr ss sb r1 r2 w2); auto; [blk|].
      destruct HB as [HB|[HB|[_ HB]]]; [left|by right; left|by right; right]. eapply no_fail_wle; [exact HB|]. wl. }
    assert (~ solid w2 -> ~ solid w) as Hss. { intros Hns HS. apply Hns. eapply solid_wle; [|exact HS]. wl. }
    intros [[ec cl'] dg'] w3 (L3 & Hk & O3 & Hres). split; [wl|]. split; [done|]. split.
    { exists []. split; [|by left]. unfold labels_lk. blk. }
    destruct Hres as [(-> & Herr & L & Hsr & Hh)|(Hec & Hsf & Hst)].
    - left. split; [done|]. split.
      + destruct Herr as [Herr|Herr]; [|auto]. rewrite Herr, E2. tauto.
      + exists ss, L. splits; auto. destruct Hsr as [S1 S2 S3 S4 S5 (La & Lb & Ha & Hb & Hc)]. constructor; auto. exists La, Lb.
        splits; [destruct Ha as [?|[? ?]]|destruct Hb as [?|[? ?]]|destruct Hc as [?|[? ?]]]; auto.
    - right. split; [done|]. eapply search_fail_wle in Hsf as [Hcode Hwhy]; [|exact (wle_trans _ _ _ L1 L2)]. splits; auto. unfold from_fail. tauto. }
  pose proof (ov_srad _ _ Hv) as Hsr. assert (o_srad o = RM_NO_RADIUS \/ o_srad o = RM_USE_SUPPLIED) as Hsr' by tauto.
  pose proof (ov_prad _ _ Hv) as [Hpr _]. pose proof (ov_2rad _ _ Hv) as [H2r _].
  set (r1 := stage_radius (o_pum o) (o_prad o) (o_prad_val o) (o_srad o) (o_srad_val o)).
  set (r2 := stage_radius (o_sum o) (o_2rad o) (o_2rad_val o) (o_srad o) (o_srad_val o)).
  destruct (decide (r1.1 = RM_USE_ESTIMATED \/ r2.1 = RM_USE_ESTIMATED)) as [Hest|Hest].
  2:{ apply Hfin; [done|blk|done| |]; apply stage_radius_none; auto. }
  apply Msat_bind. eapply Msat_mono.
  { apply (Msat_estimate cfg P V ds n G D HP B sr ss sb dg g (o_size o) w1 Hseed H Hlen).
    intros s Hsin. destruct Him as (Hi1 & _). rewrite Forall_forall in Hi1. destruct (Hi1 s Hsin) as [Hsn Hadj]. rewrite Hlen in Hsn.
    splits; auto. apply (nng_graph_seedable o n G Hv Hs g s Hg) in Hadj. by destruct (nng_graph_row o n G Hv Hs g s Hg Hadj) as (_ & _ & _ & ?). }
  intros [ec avg] w2 (L2 & O2 & He).
  destruct (decide (ec <> ER_OK)) as [Hec|Hec].
  { destruct He as [(? & _)|(_ & Hsf)]; [tauto|]. apply Msat_bind, Msat_free_arr; [rewrite Esr; blk|]. intros w3 L3 C3 E3 _. rewrite Esr in C3. apply Msat_ret.
    split; [wl|]. split; [done|]. split; [exists []; split; [unfold labels_lk; blk|by left]|]. right. split; [done|].
    eapply search_fail_wle in Hsf as [Hcode Hwhy]; [|exact L1]. split; [congruence|]. split; [unfold from_fail; tauto|by left]. }
  destruct He as [(-> & E2 & ->)|(? & _)]; [|tauto]. clear Hec.
  assert (forall r (msg : option Strings.String.string) f l, 
     ((o_pum o <> UM_IGNORE /\ o_prad o = RM_USE_ESTIMATED) \/ (o_sum o <> UM_IGNORE /\ o_2rad o = RM_USE_ESTIMATED)) ->
     use_estimate r (est_dist D g ss) = None ->
     Msat B (let* _ := free_arr (sr_seeds sr) in let* ec := make_error__ ER_NO_SOLUTION msg f l in Mret (ec, cl, dg)) w2 (fun '(ec, cl', dg') w' =>
    wle w w' /\ clu_kept cl cl' /\
    (exists lk, labels_lk lk cl cl' dg dg' w w' /\
       (lk = [] \/ (ec <> ER_OK /\ is_exclusion (o_seed o) /\ exists v, v < n /\ adj g v = []))) /\
    ((ec = ER_OK /\ (w_err w' = w_err w \/ w_err w' = no_errst \/ ~ solid w) /\
        exists ss L, sc_result cfg (~ solid w) o n G D g ss L (length ss) /\ holds cl' L (length ss) /\ (N.of_nat (length ss) <= cl_max cfg)%N) \/
     (ec <> ER_OK /\ e_code (w_err w') = ec /\ from_fail g w ec /\ failed_state cl cl')))) as Hinf.
  { intros r msg f l Hused Hu. apply Msat_bind, Msat_free_arr; [rewrite Esr; blk|]. intros w3 L3 C3 E3 _. rewrite Esr in C3.
    apply Msat_bind, Msat_make_error__. intros w4 L4 O4 E4 _. apply Msat_ret. split; [wl|]. split; [done|].
    split; [exists []; split; [unfold labels_lk; blk|by left]|]. right. split; [done|]. split; [by rewrite E4|]. split; [|by left].
    do 3 right. split; [done|]. exists ss. splits; auto. by eapply use_estimate_none. }
  destruct (use_estimate r1 (est_dist D g ss)) as [r1'|] eqn:U1.
  2:{ eapply Hinf; [|exact U1]. left. by eapply stage_radius_used. }
  destruct (use_estimate r2 (est_dist D g ss)) as [r2'|] eqn:U2.
  2:{ eapply Hinf; [|exact U2]. right. by eapply stage_radius_used. }
  apply Hfin; auto; eapply stage_radius_est; eauto.
Qed.
End Sc.

(** ** scc_sc_clustering *)

(** Labels [L] of [m] clusters are a result of clustering in batches. *)
Record batch_result (cfg : config) (o : options) (n : nat) (G : geometry) (E : nat -> list nat -> Prop) (A : list nat) (L : labels) (m : nat) : Prop := {
  br_method : o_pum o = UM_IGNORE \/ o_pum o = UM_ANY_NEIGHBOR;
  br_run : batch_run (bool_decide (o_pum o = UM_IGNORE)) (o_size o) (neighbours cfg n G (o_size o) (srad_of o) E)
             (candidates n G (o_size o) (srad_of o) (primary o n) (seq 0 n)) ([], replicate n None, 0) (A, L, m);
  br_inv : binv (o_size o) n (A, L, m);
  br_some : m <> 0
}.

Section Top.
Context (cfg : config) (Hcfg : config_ok cfg) (P : provider) (V : pview P) (ds : p_ds P) (n : nat) (G : geometry) (D : dist_fun).
Hypothesis (HP : provider_ok P V ds n G D).
Notation solid w := (no_fail w /\ provider_reliable P V ds n).
Notation holds := (holds cfg).
Context (o : options) (c : clustering).

(** Acceptable arguments. *)
Definition args_valid : Prop :=
  is_initialized_clustering cfg (Some c) = true /\ c_n c = n /\ c_k c = 0 /\ options_valid o n /\
  (o_seed o = SM_BATCHES -> o_pum o = UM_IGNORE \/ o_pum o = UM_ANY_NEIGHBOR) /\
  (2 <= o_num_types o -> tsum (o_num_types o) (tcons_of o) <= o_size o).

(** Errors after which the clustering is as before. *)
Definition early_error (w : world) (ec : ecode) : Prop :=
  (~ args_valid /\ (ec = ER_INVALID_INPUT \/ ec = ER_NO_SOLUTION \/ ec = ER_TOO_LARGE_PROBLEM \/ ec = ER_NOT_IMPLEMENTED)) \/
  (ec = ER_NO_MEMORY /\ ~ no_fail w) \/ (ec = ER_DIST_SEARCH_ERROR /\ ~ solid w) \/
  (ec = ER_TOO_LARGE_PROBLEM /\ too_many_arcs cfg (n * o_size o) = true) \/
  (args_valid /\ ec = ER_NO_SOLUTION /\ ((forall v, ~ seedable o n G v) \/
    (2 <= o_num_types o /\ exists t, t < o_num_types o /\ length (group (tlabels_of o) n t) < tcon (tcons_of o) t))).

Definition batch_error (w : world) (ec : ecode) : Prop :=
  args_valid /\
  ((ec = ER_NO_MEMORY /\ ~ no_fail w) \/ (ec = ER_DIST_SEARCH_ERROR /\ ~ solid w) \/
   (ec = ER_TOO_LARGE_PROBLEM /\ (cl_max cfg * N.of_nat (o_size o) < N.of_nat n)%N) \/
   (ec = ER_NO_SOLUTION /\ forall v, ~ seedable o n G v)).

Definition sc_post (E : nat -> list nat -> Prop) (w : world) (ec : ecode) (c' : clustering) (w' : world) : Prop :=
  (ec = ER_OK /\ args_valid /\ (w_err w' = w_err w \/ w_err w' = no_errst \/ ~ solid w) /\
     exists L m, holds c' L m /\ (N.of_nat m <= cl_max cfg)%N /\
       (if decide (o_seed o = SM_BATCHES) then exists A, batch_result cfg o n G E A L m
        else exists g ss, sc_result cfg (~ solid w) o n G D g ss L m)) \/
  (ec <> ER_OK /\ e_code (w_err w') = ec /\
     ((early_error w ec /\ c' = c) \/
      (o_seed o = SM_BATCHES /\ batch_error w ec /\ c_k c' = 0) \/
      (o_seed o <> SM_BATCHES /\ args_valid /\ (exists g, nng_graph cfg o n G g /\ from_fail cfg P V ds n D o g w ec) /\ failed_state cfg n c c'))).

Lemma Msat_sc_clustering (B : ub -> Prop) E w :
  clu_ok c -> prim_readable o -> (options_valid o n -> options_sane o n) ->
  (2 <= o_size o <= n -> nn_choice P V n (o_size o) (srad_of o) E) ->
  (o_seed o = SM_BATCHES -> (N.of_nat (o_size o) * eff_batch n (o_batch o) <= u32max)%N) ->
  (no_fail w \/ (B NullPtr /\ B Oob /\ B Arith) \/ null_checked o) ->
  Msat B (sc_clustering cfg P ds (Some o) (Some c)) w (fun '(ec, cl') w' =>
    exists c' lk, cl' = Some c' /\ wle w w' /\ clu_kept c c' /\
      (forall x, cnt x (w_live w') + cnt x (arr_blk (c_label c)) = cnt x (arr_blk (c_label c')) + cnt x lk + cnt x (w_live w)) /\
      (lk = [] \/ (ec <> ER_OK /\ is_exclusion (o_seed o) /\ args_valid /\ (exists v, seedable o n G v) /\ exists v, v < n /\ ~ seedable o n G v)) /\
      sc_post E w ec c' w').
Proof.
  intros Hok Hread Hsane HE Hwrap HB. unfold sc_clustering.
  assert (clu_kept c c) as Hkept. { constructor; auto. unfold clu_ok in Hok. destruct (c_label c); auto. }
  assert (forall w0 w' ec, wle w w0 -> own w0 [] w -> wle w0 w' -> own w' [] w0 -> ec <> ER_OK -> e_code (w_err w') = ec -> early_error w ec ->
     exists c' lk, Some c = Some c' /\ wle w w' /\ clu_kept c c' /\
      (forall x, cnt x (w_live w') + cnt x (arr_blk (c_label c)) = cnt x (arr_blk (c_label c')) + cnt x lk + cnt x (w_live w)) /\
      (lk = [] \/ (ec <> ER_OK /\ is_exclusion (o_seed o) /\ args_valid /\ (exists v, seedable o n G v) /\ exists v, v < n /\ ~ seedable o n G v)) /\
      sc_post E w ec c' w') as Hearly.
  { intros w0 w' ec L0 O0 L1 O1 Hec Hcode He. exists c, []. split; [done|]. split; [wl|]. split; [done|]. split; [blk|]. split; [by left|].
    right. splits; auto. }
  assert (forall w0 ec msg f l, wle w w0 -> own w0 [] w -> ec <> ER_OK -> early_error w ec ->
     Msat B (let* ec := make_error_msg ec msg f l in Mret (ec, Some c)) w0 (fun '(ec, cl') w' =>
      exists c' lk, cl' = Some c' /\ wle w w' /\ clu_kept c c' /\
      (forall x, cnt x (w_live w') + cnt x (arr_blk (c_label c)) = cnt x (arr_blk (c_label c')) + cnt x lk + cnt x (w_live w)) /\
      (lk = [] \/ (ec <> ER_OK /\ is_exclusion (o_seed o) /\ args_valid /\ (exists v, seedable o n G v) /\ exists v, v < n /\ ~ seedable o n G v)) /\
      sc_post E w ec c' w')) as Herr.
  { intros w0 ec msg f l L0 O0 Hec He. apply Msat_bind, Msat_make_error__. intros w1 L1 O1 E1 _. apply Msat_ret.
    eapply Hearly; [exact L0|exact O0|done|done|done|by rewrite E1|done]. }
  assert (wle w w) as L00 by wl. assert (own w [] w) as O00 by blk.
  destruct (is_initialized_clustering cfg (Some c)) eqn:Hi; cbn [negb].
  2:{ apply Herr; auto. left. split; [|tauto]. intros (H & _). congruence. }
  rewrite (pk_check _ _ _ _ _ _ HP). cbn [negb]. rewrite (pk_num _ _ _ _ _ _ HP).
  destruct (decide (n <> c_n c)) as [Hn|Hn].
  { apply Herr; auto. left. split; [|tauto]. intros (_ & H & _). congruence. }
  assert (c_n c = n) as Hn' by (destruct (decide (c_n c = n)); [done|exfalso; by apply Hn]). clear Hn. rewrite Hn'.
  apply Msat_bind. eapply Msat_mono; [by apply Msat_check_options|]. intros ec w1 (L1 & O1 & H1).
  destruct H1 as [(-> & E1 & Hv)|(Hec & Ecode & Hnv & Hwhy)].
  2:{ rewrite decide_True by done. apply Msat_ret. eapply Hearly; [exact L00|exact O00|done|done|done|done|]. left. split.
      - intros (_ & _ & _ & H & _). done.
      - destruct Hwhy as [?|[[? _]|[[? _]|[? _]]]]; tauto. }
  rewrite decide_False by tauto. specialize (Hsane Hv).
  destruct (decide (c_k c <> 0)) as [Hk|Hk].
  { apply Herr; auto. left. split; [|tauto]. intros (_ & _ & H & _). done. }
  assert (c_k c = 0) as Hk' by lia. clear Hk.
  pose proof (ov_size _ _ Hv) as Hsize. pose proof (prim_ok_options o n Hv Hsane) as Hprim.
  destruct (decide (o_seed o = SM_BATCHES)) as [Hb|Hb].
  { assert (o_num_types o < 2) as Hnt by (by destruct (ov_batches _ _ Hv Hb)).
    rewrite seed_radius_of. apply Msat_bind.
    destruct (decide (o_pum o <> UM_IGNORE /\ o_pum o <> UM_ANY_NEIGHBOR)) as [Hum|Hum].
    { unfold nng_clustering_batches. rewrite Hi, (pk_check _ _ _ _ _ _ HP), (pk_num _ _ _ _ _ _ HP), Hn'. cbn [negb].
      rewrite (decide_False (P := n <> n)) by congruence. rewrite (decide_False (P := o_size o < 2)) by lia. rewrite (decide_False (P := n < o_size o)) by lia.
      rewrite decide_True by done. apply Msat_bind, Msat_make_error__. intros w2 L2 O2 E2 _. apply Msat_ret. cbv beta iota. apply Msat_ret. cbn [fst snd].
      eapply Hearly; [exact L1|exact O1|done|done|done|by rewrite E2|]. left. split; [|tauto]. intros (_ & _ & _ & _ & H & _). specialize (H Hb). tauto. }
    assert (o_pum o = UM_IGNORE \/ o_pum o = UM_ANY_NEIGHBOR) as Hum' by (destruct (o_pum o); auto; exfalso; apply Hum; done).
    eapply Msat_mono.
    { apply (Msat_nng_clustering_batches cfg P V ds n G D HP B E c); auto; [by apply (pk_check _ _ _ _ _ _ HP)|by apply (pk_num _ _ _ _ _ _ HP)|lia|lia|..].
      - intros r Hr. unfold srad_of in Hr. destruct (ov_srad _ _ Hv) as [Er|[Er Hd]]; rewrite Er in Hr; [done|]. by injection Hr as <-.
      - pose proof (ov_prim _ _ Hv) as Hp. intros [p Ep]. rewrite Ep in Hp. tauto.
      - pose proof (ov_prim _ _ Hv) as Hp. intros Ep. by rewrite Ep in Hp.
      - destruct HB as [HB|[(HB & _)|[[_ HB]|[? _]]]]; [right; left|by right; right|by left|done]. eapply no_fail_wle; [exact HB|]. wl. }
    intros [ec c'] w2 (L2 & O2 & Hck & Hres). apply Msat_ret. simpl. exists c', []. split; [done|]. split; [wl|]. split; [done|]. split.
    { unfold labels_own in O2. blk. }
    split; [by left|].
    assert args_valid as Hav. { unfold args_valid. splits; auto. lia. }
    destruct Hres as [(-> & E2 & _ & A & L & m & Hrun & Hinv & Hm & Hmax & Hh)|(Hec & Ecode & Hk2 & Hwhy)].
    - left. split; [done|]. split; [done|]. split; [left; congruence|]. exists L, m. splits; auto. rewrite decide_True by done. exists A. by constructor.
    - right. split; [done|]. split; [done|]. right. left. split; [done|]. split; [|done]. split; [done|].
      assert (~ solid w1 -> ~ solid w) as Hss. { intros Hns HS. apply Hns. by eapply solid_wle. }
      assert (~ no_fail w1 -> ~ no_fail w) as Hsf. { intros Hns HS. apply Hns. by eapply no_fail_wle. }
      destruct Hwhy as [[-> Hw]|[[-> Hw]|[[-> Hw]|[(-> & _ & Hw)|(_ & Hu1 & Hu2 & _)]]]]; auto.
      + do 3 right. split; [done|]. intros v [HvQ Hf]. rewrite decide_True in Hf by done. assert (v ∈ candidates n G (o_size o) (srad_of o) (primary o n) (seq 0 n)) as Hin.
        { unfold candidates. apply elem_of_list_filter. split; [done|]. apply elem_of_seq. pose proof (primary_lt o n Hv Hsane v HvQ). lia. }
        unfold primary in Hin. rewrite Hw in Hin. by apply elem_of_nil in Hin.
      + tauto. }
  apply Msat_bind.
  eapply Msat_mono with (P := fun '(ec, nng) w2 => wle w1 w2 /\
    ((ec = ER_OK /\ args_valid /\ (w_err w2 = w_err w1 \/ w_err w2 = no_errst) /\ exists g, dg_rep cfg nng g /\ nng_graph cfg o n G g /\ (exists v, seedable o n G v) /\ own w2 (dg_blocks nng) w1) \/
     (ec <> ER_OK /\ own w2 [] w1 /\ e_code (w_err w2) = ec /\ early_error w ec))).
  { assert (~ solid w1 -> ~ solid w) as Hss. { intros Hns HS. apply Hns. by eapply solid_wle. }
    assert (~ no_fail w1 -> ~ no_fail w) as Hsf. { intros Hns HS. apply Hns. by eapply no_fail_wle. }
    pose proof (os_size _ _ Hsane) as Hsz. rewrite seed_radius_of. destruct (decide (o_num_types o < 2)) as [Ht|Ht].
    - assert args_valid as Hav. { unfold args_valid. splits; auto; [done|lia]. }
      eapply Msat_mono; [apply (Msat_size_nng cfg P V ds n G D HP); auto; lia|]. intros [ec nng] w2 (L2 & Hg1 & Hg2). split; [done|].
      destruct (decide (ec = ER_OK)) as [-> |Hec].
      + left. destruct (Hg1 eq_refl) as (g & R & Hg & (v & Hv1 & Hv2) & O2 & E2). splits; auto. exists g. splits; auto.
        * unfold nng_graph. by rewrite decide_True.
        * exists v. split; [done|]. by rewrite decide_True.
      + right. destruct (Hg2 Hec) as (O2 & E2 & Hwhy). splits; auto. right.
        destruct Hwhy as [[_ [[-> ?]|[[-> ?]|[-> ?]]]]|[-> Hno]]; [by left; auto|by right; right; left|by right; left; auto|].
        do 3 right. split; [done|]. split; [done|]. left. intros v [Hv1 Hv2]. rewrite decide_True in Hv2 by done. by apply (Hno v).
    - assert (2 <= o_num_types o) as Ht2 by lia. destruct (ov_typed _ _ Hv Ht2) as (_ & [tc Etc] & _ & [tl Etl]). rewrite Etc, Etl.
      pose proof (types_ok_options o n Hv Hsane Ht2) as Hty. destruct (os_sum _ _ Hsane Ht2) as [Hpos Hw32].
      assert (tcons_of o = tc) as Htc by (unfold tcons_of; by rewrite Etc). assert (tlabels_of o = tl) as Htl by (unfold tlabels_of; by rewrite Etl).
      rewrite Htc in Hty, Hpos, Hw32. rewrite Htl in Hty.
      eapply Msat_mono; [apply (Msat_type_nng cfg P V ds n G D HP); auto; lia|]. intros [ec nng] w2 (L2 & Hg1 & Hg2). split; [done|].
      destruct (decide (ec = ER_OK)) as [-> |Hec].
      + left. destruct (Hg1 eq_refl) as (g & R & Hg & (v & Hv1 & Hv2) & Hsum & O2 & E2). split; [done|]. split.
        { unfold args_valid. splits; auto; [done|]. by rewrite Htc. }
        split; [done|]. exists g. splits; auto.
        * unfold nng_graph. rewrite decide_False by done. by rewrite Htc, Htl.
        * exists v. split; [done|]. rewrite decide_False by done. by rewrite Htc, Htl.
      + right. destruct (Hg2 Hec) as (O2 & E2 & Hwhy). splits; auto.
        destruct (decide (tsum (o_num_types o) tc <= o_size o)) as [Hsum|Hsum].
        * assert args_valid as Hav. { unfold args_valid. splits; auto; [done|]. by rewrite Htc. }
          right. destruct Hwhy as [[_ [[-> ?]|[[-> ?]|[-> ?]]]]|[[-> Hno]|[-> Hlt]]]; [by left; auto|by right; right; left|by right; left; auto| |lia].
          do 3 right. split; [done|]. split; [done|]. destruct Hno as [Hno|Hno].
          -- left. intros v [Hv1 Hv2]. rewrite decide_False in Hv2 by done. rewrite Htc, Htl in Hv2. by apply (Hno v).
          -- right. split; [done|]. by rewrite Htc, Htl.
        * assert (~ args_valid) as Hnav by (intros (_ & _ & _ & _ & _ & H); specialize (H Ht2); rewrite Htc in H; lia).
          destruct Hwhy as [[_ [[-> ?]|[[-> ?]|[-> ?]]]]|[[-> Hno]|[-> Hlt]]]; [by right; left; auto|by right; right; right; left|by right; right; left; auto|left; tauto|left; tauto]. }
  intros [ec nng] w2 (L2 & [(-> & Hav & E2 & g & R & Hg & Hsd & O2)|(Hec & O2 & Ecode & He)]).
  2:{ rewrite decide_True by done. apply Msat_ret. eapply Hearly; [exact L1|exact O1|done|done|done|done|done]. }
  rewrite decide_False by tauto. apply Msat_bind. eapply Msat_mono.
  { apply (Msat_from_nng cfg Hcfg P V ds n G D HP o Hv Hsane B c nng g w2 R); auto.
    - blk.
    - unfold is_initialized_clustering in Hi. rewrite Hn' in Hi. destruct (decide (c_version c <> clustering_version)); [done|]. destruct (decide (n = 0)); [done|].
      destruct (N.ltb_spec (pi_max cfg) (N.of_nat n)); [done|lia].
    - destruct HB as [HB|[HB|[[? _]|[_ HB]]]]; [left|by right; left|done|by right; right]. eapply no_fail_wle; [exact HB|]. wl. }
  intros [[ec c'] nng'] w3 (L3 & Hk3 & (lk & O3 & Hlk) & Hres). unfold labels_lk in O3.
  apply Msat_bind, Msat_free_digraph.
  { intros x. specialize (O3 x). specialize (O2 x). pose proof (ck_label _ _ Hk3) as Hkl. destruct (c_label c) as [a|], (c_label c') as [a'|]; simpl in *; try done; [|lia|lia].
    destruct Hkl as [Hkl _]. rewrite Hkl in O3. lia. }
  intros w4 L4 O4 E4 _. apply Msat_ret. exists c', lk. split; [done|]. split; [wl|]. split; [done|]. split; [blk|]. split.
  { destruct Hlk as [?|(? & ? & v & Hvn & Hadj)]; [by left|right]. splits; auto. exists v. split; [done|]. intros Hsd'.
    by apply (nng_graph_seedable o n G Hv Hsane g v Hg) in Hsd'. }
  assert (~ solid w2 -> ~ solid w) as Hss. { intros Hns HS. apply Hns. eapply solid_wle; [|exact HS]. wl. }
  assert (~ no_fail w2 -> ~ no_fail w) as Hsf. { intros Hns HS. apply Hns. eapply no_fail_wle; [exact HS|]. wl. }
  destruct Hres as [(-> & E3 & ss & L & Hr & Hh & Hm)|(Hec & Ecode & Hwhy & Hst)].
  - left. split; [done|]. split; [done|]. split.
    { rewrite E4. destruct E3 as [E3|[E3|E3]]; [|auto|auto]. destruct E2 as [E2|E2]; [left; congruence|right; left; congruence]. }
    exists L, (length ss). splits; auto. rewrite decide_False by done. exists g, ss. destruct Hr as [S1 S2 S3 S4 S5 (La & Lb & Ha & Hb' & Hc)]. constructor; auto. exists La, Lb.
    splits; [destruct Ha as [?|[? ?]]|destruct Hb' as [?|[? ?]]|destruct Hc as [?|[? ?]]]; auto.
  - right. split; [done|]. split; [congruence|]. right. right. splits; auto. exists g. split; [done|]. unfold from_fail in *. tauto.
Qed.
End Top.
