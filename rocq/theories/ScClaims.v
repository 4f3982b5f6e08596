(** What a user can rely on after a call of scc_sc_clustering. *)

From stdpp Require Import prelude list sorting.
From Coq Require Import NArith ZArith.
From Verif Require Import Base World Mem Digraph DigraphRep Float Spi Options Arrays GraphSpec SeedSpec AssignSpec SeedsExcl
  Nng NngGraph NngSize NngAssign NngStage TypeCount TypeRows Batch BatchSpec BatchProof OptionsProof NngClustering
  ScSpec ScProof ClusSpec ScFacts Approx.

(** Requirements on a call with the options [o] and the clustering [c] that the
    library does not check itself: the provider [P] serves the data set [ds] of
    [n] points with geometry [G] and distances [D]; the label array of [c], if
    any, has an element per point; arrays in the options are as long as stated and
    their entries in range; the product computed for the batch buffer does not
    exceed uint32_t. *)
Record call_ok (cfg : config) (P : provider) (V : pview P) (ds : p_ds P) (n : nat) (G : geometry) (D : dist_fun)
    (o : options) (c : clustering) : Prop := {
  co_cfg : config_ok cfg;
  co_prov : provider_ok P V ds n G D;
  co_clu : clu_ok c;
  co_read : prim_readable o;
  co_sane : options_valid o n -> options_sane o n;
  co_batch : o_seed o = SM_BATCHES -> (N.of_nat (o_size o) * eff_batch n (o_batch o) <= u32max)%N
}.

(** Nothing outside the library fails. *)
Definition solid (P : provider) (V : pview P) (ds : p_ds P) (n : nat) (w : world) : Prop := no_fail w /\ provider_reliable P V ds n.

Section Claims.
Context (cfg : config) (P : provider) (V : pview P) (ds : p_ds P) (n : nat) (G : geometry) (D : dist_fun) (o : options) (c : clustering).
Hypothesis (Hc : call_ok cfg P V ds n G D o c).

Lemma choice_any : 2 <= o_size o <= n -> nn_choice P V n (o_size o) (srad_of o) (fun _ _ => True).
Proof. intros H. eapply nn_choice_any; [apply Hc|lia|lia]. Qed.

Lemma run_sat_checked (B : ub -> Prop) E w : (2 <= o_size o <= n -> nn_choice P V n (o_size o) (srad_of o) E) -> (no_fail w \/ (B NullPtr /\ B Oob /\ B Arith) \/ null_checked o) ->
  Msat B (sc_clustering cfg P ds (Some o) (Some c)) w (fun '(ec, cl') w' =>
    exists c' lk, cl' = Some c' /\ wle w w' /\ clu_kept c c' /\
      (forall x, cnt x (w_live w') + cnt x (arr_blk (c_label c)) = cnt x (arr_blk (c_label c')) + cnt x lk + cnt x (w_live w)) /\
      (lk = [] \/ (ec <> ER_OK /\ is_exclusion (o_seed o) /\ args_valid cfg n o c /\ (exists v, seedable o n G v) /\ exists v, v < n /\ ~ seedable o n G v)) /\
      sc_post cfg P V ds n G D o c E w ec c' w').
Proof. intros HE HB. destruct Hc. by apply Msat_sc_clustering. Qed.
Lemma run_sat (B : ub -> Prop) E w : (2 <= o_size o <= n -> nn_choice P V n (o_size o) (srad_of o) E) -> (no_fail w \/ (B NullPtr /\ B Oob /\ B Arith)) ->
  Msat B (sc_clustering cfg P ds (Some o) (Some c)) w (fun '(ec, cl') w' =>
    exists c' lk, cl' = Some c' /\ wle w w' /\ clu_kept c c' /\
      (forall x, cnt x (w_live w') + cnt x (arr_blk (c_label c)) = cnt x (arr_blk (c_label c')) + cnt x lk + cnt x (w_live w)) /\
      (lk = [] \/ (ec <> ER_OK /\ is_exclusion (o_seed o) /\ args_valid cfg n o c /\ (exists v, seedable o n G v) /\ exists v, v < n /\ ~ seedable o n G v)) /\
      sc_post cfg P V ds n G D o c E w ec c' w').
Proof. intros HE HB. apply run_sat_checked; tauto. Qed.

Section Success.
Context (w w' : world) (c' : clustering).
Hypothesis (Hrun : sc_clustering cfg P ds (Some o) (Some c) w = Ok ((ER_OK, Some c'), w')).

Lemma run_result E : (2 <= o_size o <= n -> nn_choice P V n (o_size o) (srad_of o) E) ->
  args_valid cfg n o c /\ options_sane o n /\ c_n c' = n /\ exists L m, holds cfg c' L m /\ (N.of_nat m <= cl_max cfg)%N /\
    (if decide (o_seed o = SM_BATCHES) then exists A, batch_result cfg o n G E A L m
     else exists g ss, sc_result cfg (~ solid P V ds n w) o n G D g ss L m).
Proof.
  intros HE. pose proof (run_sat anyub E w HE) as Hs. unfold Msat in Hs. rewrite Hrun in Hs.
  destruct Hs as (c1 & lk & [= <-] & _ & Hk & _ & _ & Hp); [by right|]. destruct Hp as [(_ & Ha & _ & Hr)|(? & _)]; [|done].
  destruct Ha as (Ha1 & Ha2 & Ha3 & Ha4 & Ha5). split; [done|]. split; [by apply Hc|]. split; [|done]. by rewrite (ck_n _ _ Hk).
Qed.

Lemma run_plain : o_seed o <> SM_BATCHES -> options_valid o n /\ options_sane o n /\ c_n c' = n /\ exists L m g ss,
  holds cfg c' L m /\ (N.of_nat m <= cl_max cfg)%N /\ sc_result cfg (~ solid P V ds n w) o n G D g ss L m.
Proof.
  intros Hb. destruct (run_result _ choice_any) as (Ha & Hs & Hn & L & m & Hh & Hm & Hr). rewrite decide_False in Hr by done. destruct Hr as (g & ss & Hr).
  split; [apply Ha|]. split; [done|]. split; [done|]. exists L, m, g, ss. done.
Qed.

Lemma run_batches : o_seed o = SM_BATCHES -> options_valid o n /\ options_sane o n /\ c_n c' = n /\ exists L m A,
  holds cfg c' L m /\ (N.of_nat m <= cl_max cfg)%N /\ batch_result cfg o n G (fun _ _ => True) A L m.
Proof.
  intros Hb. destruct (run_result _ choice_any) as (Ha & Hs & Hn & L & m & Hh & Hm & Hr). rewrite decide_True in Hr by done. destruct Hr as (A & Hr).
  split; [apply Ha|]. split; [done|]. split; [done|]. exists L, m, A. done.
Qed.

(** Labels in either case. *)
Lemma run_labels : exists L m, holds cfg c' L m /\ (N.of_nat m <= cl_max cfg)%N /\ labels_lt m L /\ length L = n /\ c_n c' = n /\ m <> 0.
Proof.
  destruct (decide (o_seed o = SM_BATCHES)) as [Hb|Hb].
  - destruct (run_batches Hb) as (Hv & Hs & Hn & L & m & A & Hh & Hm & Hr). exists L, m. split; [done|]. split; [done|].
    split; [by eapply bres_lt|]. split; [by eapply bres_len|]. split; [done|]. by eapply br_some.
  - destruct (run_plain Hb) as (Hv & Hs & Hn & L & m & g & ss & Hh & Hm & Hr). exists L, m. split; [done|]. split; [done|].
    split; [by eapply res_lt|]. split; [by eapply res_len|]. split; [done|]. by eapply res_some.
Qed.

Lemma claim_size i : o_seed o <> SM_BATCHES -> i < c_k c' -> o_size o <= length (cluster c' i).
Proof.
  intros Hb Hi. destruct (run_plain Hb) as (Hv & Hs & Hn & L & m & g & ss & Hh & Hm & Hr). pose proof Hh as [_ Hk]. rewrite Hk in Hi.
  rewrite (holds_cluster cfg (co_cfg _ _ _ _ _ _ _ _ _ Hc) c' L m); auto; [by eapply res_size|by rewrite (res_len _ _ _ _ _ _ _ _ _ Hr)|by eapply res_lt].
Qed.

Lemma claim_size_batches i : o_seed o = SM_BATCHES -> i < c_k c' -> o_size o <= length (cluster c' i).
Proof.
  intros Hb Hi. destruct (run_batches Hb) as (Hv & Hs & Hn & L & m & A & Hh & Hm & Hr). pose proof Hh as [_ Hk]. rewrite Hk in Hi.
  rewrite (holds_cluster cfg (co_cfg _ _ _ _ _ _ _ _ _ Hc) c' L m); auto; [by eapply bres_size|by rewrite (bres_len _ _ _ _ _ _ _ Hr)|by eapply bres_lt].
Qed.

Lemma claim_types i t : 2 <= o_num_types o -> i < c_k c' -> t < o_num_types o ->
  tcon (tcons_of o) t <= length (of_type (tlabels_of o) t (cluster c' i)) /\ o_size o <= length (cluster c' i).
Proof.
  intros Ht Hi Htn. assert (o_seed o <> SM_BATCHES) as Hb.
  { intros Hb. destruct (run_batches Hb) as (Hv & _). destruct (ov_batches _ _ Hv Hb). lia. }
  split; [|by apply claim_size]. destruct (run_plain Hb) as (Hv & Hs & Hn & L & m & g & ss & Hh & Hm & Hr). pose proof Hh as [_ Hk]. rewrite Hk in Hi.
  rewrite (holds_cluster cfg (co_cfg _ _ _ _ _ _ _ _ _ Hc) c' L m); auto; [by eapply res_types|by rewrite (res_len _ _ _ _ _ _ _ _ _ Hr)|by eapply res_lt].
Qed.

Lemma claim_labels : c_n c' = n /\ 1 <= c_k c' /\ length (cells c') = n /\
  (forall x, x < n -> unlabelled cfg c' x \/ exists i, i < c_k c' /\ label_of c' x = Some (Z.of_nat i)) /\
  (forall i, i < c_k c' -> Z.of_nat i <> cl_na cfg).
Proof.
  destruct run_labels as (L & m & Hh & Hm & Hlt & Hl & Hn & Hm0). pose proof Hh as [(lb & Hcl) Hk]. rewrite Hk. splits; auto; [lia| | |].
  - unfold cells. rewrite Hcl. simpl. by rewrite !fmap_length.
  - intros x Hx. rewrite (holds_unlabelled cfg (co_cfg _ _ _ _ _ _ _ _ _ Hc) c' L m x) by (auto; lia). rewrite (holds_label_of cfg c' L m x Hh) by lia.
    destruct (lab L x) as [i|] eqn:E; [right|by left]. exists i. split; [by eapply Hlt|done].
  - intros i Hi E. pose proof (enc_na cfg (co_cfg _ _ _ _ _ _ _ _ _ Hc) m (Some i) Hm) as [H _]; [by intros ? [= ->]|]. by specialize (H E).
Qed.

Lemma claim_count : c_k c' * o_size o <= n.
Proof.
  destruct (decide (o_seed o = SM_BATCHES)) as [Hb|Hb].
  - destruct (run_batches Hb) as (Hv & Hs & Hn & L & m & A & [_ ->] & Hm & Hr). by eapply bres_bound.
  - destruct (run_plain Hb) as (Hv & Hs & Hn & L & m & g & ss & [_ ->] & Hm & Hr). by eapply res_bound.
Qed.

Lemma in_cluster_of L m x : holds cfg c' L m -> (N.of_nat m <= cl_max cfg)%N -> labels_lt m L -> length L = n -> c_n c' = n -> assigned L x -> in_cluster c' x.
Proof. intros Hh Hm Hlt Hl Hn. apply (holds_in_cluster cfg (co_cfg _ _ _ _ _ _ _ _ _ Hc) c' L m x); auto. by rewrite Hl. Qed.

Lemma claim_any x : solid P V ds n w -> o_pum o = UM_ANY_NEIGHBOR -> seedable o n G x -> in_cluster c' x.
Proof.
  intros Hsol Hum Hsd. pose proof Hsd as [Hp Hf]. destruct (decide (o_seed o = SM_BATCHES)) as [Hb|Hb].
  - destruct (run_batches Hb) as (Hv & Hs & Hn & L & m & A & Hh & Hm & Hr). eapply in_cluster_of; eauto; [by eapply bres_lt|by eapply bres_len|].
    destruct (ov_batches _ _ Hv Hb) as [Ht _]. rewrite decide_True in Hf by lia. by eapply bres_any_neighbor.
  - destruct (run_plain Hb) as (Hv & Hs & Hn & L & m & g & ss & Hh & Hm & Hr). eapply in_cluster_of; eauto; [by eapply res_lt|by eapply res_len|].
    eapply res_any_neighbor; eauto; [by eapply primary_lt|]. eapply nng_graph_seedable; eauto. by eapply sr_graph.
Qed.

Lemma claim_any_primary x : solid P V ds n w -> o_pum o = UM_ANY_NEIGHBOR -> o_srad o = RM_NO_RADIUS -> x ∈ primary o n -> in_cluster c' x.
Proof.
  intros Hsol Hum Hr0 Hp. assert (srad_of o = None) as Hsr by (unfold srad_of; by rewrite Hr0). apply claim_any; auto.
  destruct (decide (o_seed o = SM_BATCHES)) as [Hb|Hb].
  - destruct (run_batches Hb) as (Hv & Hs & Hn & L & m & A & Hh & Hm & Hr). split; [done|]. destruct (ov_batches _ _ Hv Hb) as [Ht _].
    rewrite decide_True by lia. by eapply bres_no_radius.
  - destruct (run_plain Hb) as (Hv & Hs & Hn & L & m & g & ss & Hh & Hm & Hr). by eapply res_seedable.
Qed.

(** The radius method [rm] of an assignment stage amounts to no radius. *)
Definition no_radius (rm : radius_method) : Prop := rm = RM_NO_RADIUS \/ (rm = RM_USE_SEED_RADIUS /\ o_srad o = RM_NO_RADIUS).

Lemma no_radius_of um rm v avg : no_radius rm -> radius_of um rm v (srad_of o) avg = None.
Proof. intros [-> |[-> E]]; destruct um; try done; simpl; unfold srad_of; by rewrite E. Qed.

Lemma not_batches : o_pum o <> UM_IGNORE -> o_pum o <> UM_ANY_NEIGHBOR -> o_seed o <> SM_BATCHES.
Proof. intros H1 H2 Hb. destruct (run_result _ choice_any) as ((_ & _ & _ & _ & H & _) & _). destruct (H Hb); done. Qed.

Lemma claim_closest_primary x : solid P V ds n w -> is_closest (o_pum o) -> no_radius (o_prad o) -> x ∈ primary o n -> in_cluster c' x.
Proof.
  intros Hsol Hum Hr0 Hp. assert (o_seed o <> SM_BATCHES) as Hb by (apply not_batches; destruct Hum; congruence).
  destruct (run_plain Hb) as (Hv & Hs & Hn & L & m & g & ss & Hh & Hm & Hr). eapply in_cluster_of; eauto; [by eapply res_lt|by eapply res_len|].
  eapply res_primary; eauto. by apply no_radius_of.
Qed.

Lemma claim_closest_all x : solid P V ds n w -> is_closest (o_sum o) -> no_radius (o_2rad o) -> x < n -> in_cluster c' x.
Proof.
  intros Hsol Hum Hr0 Hp. assert (o_seed o <> SM_BATCHES) as Hb.
  { intros Hb. destruct (run_batches Hb) as (Hv & _). destruct (ov_batches _ _ Hv Hb) as (_ & Hx & _). destruct Hum; congruence. }
  destruct (run_plain Hb) as (Hv & Hs & Hn & L & m & g & ss & Hh & Hm & Hr). eapply in_cluster_of; eauto; [by eapply res_lt|by eapply res_len|].
  eapply res_secondary; eauto. by apply no_radius_of.
Qed.

Lemma not_in_unlabelled x : x < n -> ~ in_cluster c' x -> unlabelled cfg c' x.
Proof.
  destruct run_labels as (L & m & Hh & Hm & Hlt & Hl & Hn & Hm0). intros Hx. rewrite (holds_in_cluster cfg (co_cfg _ _ _ _ _ _ _ _ _ Hc) c' L m x) by (auto; congruence).
  rewrite (holds_unlabelled cfg (co_cfg _ _ _ _ _ _ _ _ _ Hc) c' L m x) by (auto; lia). unfold assigned. intros H. by apply dec_stable.
Qed.

Lemma claim_exact i : o_num_types o < 2 -> o_pum o = UM_IGNORE -> o_sum o = UM_IGNORE -> i < c_k c' -> length (cluster c' i) = o_size o.
Proof.
  intros Ht H1 H2 Hi. destruct (decide (o_seed o = SM_BATCHES)) as [Hb|Hb].
  - destruct (run_batches Hb) as (Hv & Hs & Hn & L & m & A & Hh & Hm & Hr). pose proof Hh as [_ Hk]. rewrite Hk in Hi.
    rewrite (holds_cluster cfg (co_cfg _ _ _ _ _ _ _ _ _ Hc) c' L m); auto; [by eapply bres_exact|by rewrite (bres_len _ _ _ _ _ _ _ Hr)|by eapply bres_lt].
  - destruct (run_plain Hb) as (Hv & Hs & Hn & L & m & g & ss & Hh & Hm & Hr). pose proof Hh as [_ Hk]. rewrite Hk in Hi.
    rewrite (holds_cluster cfg (co_cfg _ _ _ _ _ _ _ _ _ Hc) c' L m); auto; [by eapply res_exact|by rewrite (res_len _ _ _ _ _ _ _ _ _ Hr)|by eapply res_lt].
Qed.

Lemma lab_cluster L m i x : holds cfg c' L m -> (N.of_nat m <= cl_max cfg)%N -> labels_lt m L -> length L = n -> c_n c' = n -> i < m ->
  x ∈ cluster c' i <-> lab L x = Some i.
Proof.
  intros Hh Hm Hlt Hl Hn Hi. rewrite (holds_cluster cfg (co_cfg _ _ _ _ _ _ _ _ _ Hc) c' L m) by (auto; congruence). unfold lab_members. rewrite elem_of_list_filter, elem_of_seq.
  split; [tauto|]. intros H. split; [done|]. apply lab_lt in H. lia.
Qed.

Lemma claim_seed i : o_num_types o < 2 -> o_seed o <> SM_BATCHES -> i < c_k c' -> exists s r,
  s ∈ primary o n /\ NoDup (s :: r) /\ S (length r) = o_size o /\ (forall x, x ∈ s :: r -> x ∈ cluster c' i) /\
  (forall x, x ∈ r -> within_opt G (srad_of o) s x = true) /\
  (forall x y, x ∈ r -> y < n -> y ∉ s :: r -> nearer G s x y = true).
Proof.
  intros Ht Hb Hi. destruct (run_plain Hb) as (Hv & Hs & Hn & L & m & g & ss & Hh & Hm & Hr). pose proof Hh as [_ Hk]. rewrite Hk in Hi.
  pose proof (res_len _ _ _ _ _ _ _ _ _ Hr) as Hl. pose proof (res_lt _ _ _ _ _ _ _ _ _ Hr) as Hlt.
  destruct (res_nearest _ _ _ _ _ _ _ _ _ Hv Hs Hr i Ht Hi) as (s & r & Hsi & Ecl & Hlen & Hw & Hnr). pose proof (elem_of_list_lookup_2 _ _ _ Hsi) as Hin.
  pose proof (res_closed _ _ _ _ _ _ _ _ _ Hv Hs Hr s Hin) as (Hnd & _). pose proof (ov_size _ _ Hv). exists s, r. rewrite Ecl in Hnd. splits; auto.
  - by apply (res_seed _ _ _ _ _ _ _ _ _ Hv Hs Hr s Hin).
  - lia.
  - intros x Hx. eapply lab_cluster; eauto. eapply (res_group _ _ _ _ _ _ _ _ _ Hv Hs Hr); eauto. by rewrite Ecl.
  - rewrite Forall_forall in Hw. auto.
Qed.

(** No secondary stage can have an effect. *)
Definition one_stage : Prop := o_sum o = UM_IGNORE \/ (solid P V ds n w /\ o_srad o = RM_NO_RADIUS /\ o_prim o = None).

Lemma one_stage_of : one_stage -> o_sum o = UM_IGNORE \/ (~ ~ solid P V ds n w /\ srad_of o = None /\ o_prim o = None).
Proof. intros [?|(? & E & ?)]; [by left|right]. splits; auto. unfold srad_of. by rewrite E. Qed.

Lemma claim_two x y i : o_size o = 2 -> o_num_types o < 2 -> o_seed o = SM_INWARDS_UPDATING -> o_pum o = UM_ANY_NEIGHBOR -> one_stage ->
  i < c_k c' -> x ∈ cluster c' i -> y ∈ cluster c' i -> x <> y ->
  linked n G x y \/ exists z, z ∈ cluster c' i /\ linked n G x z /\ linked n G z y.
Proof.
  intros H2 Ht Hsm Hum Hone Hi Hx Hy Hxy. destruct run_plain as (Hv & Hs & Hn & L & m & g & ss & Hh & Hm & Hr); [congruence|]. pose proof Hh as [_ Hk]. rewrite Hk in Hi.
  pose proof (res_len _ _ _ _ _ _ _ _ _ Hr) as Hl. pose proof (res_lt _ _ _ _ _ _ _ _ _ Hr) as Hlt.
  rewrite (lab_cluster L m) in Hx, Hy by auto.
  destruct (two_arcs _ o n G D g ss L m Hv Hs Hr Hum (one_stage_of Hone) Hsm H2 Ht x y i Hx Hy Hxy) as [?|(z & Hz & H3 & H4)]; [by left|right].
  exists z. rewrite (lab_cluster L m) by auto. done.
Qed.

Lemma claim_four {T} (le : T -> T -> Prop) (add : T -> T -> T) (d : nat -> nat -> T) f lam x y i :
  metric le add d -> (forall q x y, q < n -> x < n -> y < n -> nearer G q x y = true -> le (d q x) (d q y)) ->
  alt_ok o n f -> (forall x y, x < n -> y < n -> f x = f y -> le (d x y) lam) ->
  o_seed o <> SM_BATCHES -> o_pum o = UM_ANY_NEIGHBOR -> one_stage ->
  i < c_k c' -> x ∈ cluster c' i -> y ∈ cluster c' i -> le (d x y) (add (add lam lam) (add lam lam)).
Proof.
  intros HM Hnear Hf Hlam Hb Hum Hone Hi Hx Hy. destruct (run_plain Hb) as (Hv & Hs & Hn & L & m & g & ss & Hh & Hm & Hr). pose proof Hh as [_ Hk]. rewrite Hk in Hi.
  pose proof (res_len _ _ _ _ _ _ _ _ _ Hr) as Hl. pose proof (res_lt _ _ _ _ _ _ _ _ _ Hr) as Hlt.
  rewrite (lab_cluster L m) in Hx, Hy by auto.
  by apply (four_times le add d HM o n G Hv Hs Hnear f lam Hf Hlam _ D g ss L m Hr Hum (one_stage_of Hone) x y i).
Qed.
End Success.
End Claims.
