(** More about calls of scc_sc_clustering: failures, memory, rejected arguments,
    batch sizes, seeds. *)

From Coq Require Import Strings.String.
From stdpp Require Import prelude list sorting.
From Coq Require Import NArith ZArith.
From Verif Require Import Base SortIdx World Mem Digraph DigraphRep Float Spi Options Arrays GraphSpec SeedSpec AssignSpec SeedsExcl
  Nng NngGraph NngSize NngAssign NngStage TypeCount TypeRows Batch BatchSpec BatchProof OptionsProof NngClustering
  ScSpec ScProof ClusSpec ScFacts Approx ScClaims.
Open Scope list_scope. Open Scope nat_scope.

Section More.
Context (cfg : config) (P : provider) (V : pview P) (ds : p_ds P) (n : nat) (G : geometry) (D : dist_fun) (o : options) (c : clustering).
Hypothesis (Hc : call_ok cfg P V ds n G D o c).

(** ** Safety *)

Lemma claim_safe w : no_fail w -> exists ec c' w', sc_clustering cfg P ds (Some o) (Some c) w = Ok ((ec, Some c'), w').
Proof.
  intros Hn. pose proof (run_sat _ _ _ _ _ _ _ _ _ Hc none _ w (choice_any _ _ _ _ _ _ _ _ _ Hc)) as Hs.
  unfold Msat in Hs. destruct (sc_clustering cfg P ds (Some o) (Some c) w) as [[[ec cl] w']|u] eqn:E; cbn [Rsat] in Hs; [|exfalso; apply Hs; by left].
  destruct Hs as (c1 & _ & -> & _); [by left|]. eauto.
Qed.

(** Undefined behaviour is possible only after a failed allocation, and never a
    wrong call of free or realloc. *)
Lemma claim_ub w u : sc_clustering cfg P ds (Some o) (Some c) w = Bad u -> (u = NullPtr \/ u = Oob \/ u = Arith) /\ ~ no_fail w.
Proof.
  intros E. split.
  - pose proof (run_sat _ _ _ _ _ _ _ _ _ Hc (fun u => u = NullPtr \/ u = Oob \/ u = Arith) _ w (choice_any _ _ _ _ _ _ _ _ _ Hc)) as Hs.
    unfold Msat in Hs. rewrite E in Hs. apply Hs. right. tauto.
  - intros Hn. destruct (claim_safe w Hn) as (ec & c' & w' & E'). congruence.
Qed.

(** ** Memory *)

Lemma claim_live w ec cl' w' : sc_clustering cfg P ds (Some o) (Some c) w = Ok ((ec, cl'), w') ->
  exists c' lk, cl' = Some c' /\ w_live w' ++ arr_blk (c_label c) ≡ₚ arr_blk (c_label c') ++ lk ++ w_live w /\
    (lk <> [] -> ec <> ER_OK /\ is_exclusion (o_seed o) /\ exists v, v < n /\ ~ seedable o n G v).
Proof.
  intros E. pose proof (run_sat _ _ _ _ _ _ _ _ _ Hc anyub _ w (choice_any _ _ _ _ _ _ _ _ _ Hc)) as Hs. unfold Msat in Hs. rewrite E in Hs.
  destruct Hs as (c' & lk & -> & _ & _ & Hl & Hlk & _); [by right|]. exists c', lk. split; [done|]. split.
  - apply cnt_perm. intros x. rewrite !cnt_app. specialize (Hl x). lia.
  - intros Hne. destruct Hlk as [->|(? & ? & _ & _ & ?)]; [done|]. auto.
Qed.

(** Without radius all primary points are alike. *)
Lemma seedable_alike v v' : o_srad o = RM_NO_RADIUS -> seedable o n G v -> v' ∈ primary o n -> seedable o n G v'.
Proof.
  intros Hr [_ Hsd] Hp. assert (srad_of o = None) as Hs by (unfold srad_of; by rewrite Hr). split; [done|]. rewrite Hs in *.
  destruct (decide (o_num_types o < 2)); [done|]. unfold typed_ok, type_feasible in *. destruct Hsd as [H1 H2]. split; [|done]. eapply Forall_impl; [exact H1|]. done.
Qed.

Lemma claim_no_leak w ec cl' w' : sc_clustering cfg P ds (Some o) (Some c) w = Ok ((ec, cl'), w') ->
  ec = ER_OK \/ ~ is_exclusion (o_seed o) \/ (o_prim o = None /\ o_srad o = RM_NO_RADIUS) ->
  exists c', cl' = Some c' /\ w_live w' ++ arr_blk (c_label c) ≡ₚ arr_blk (c_label c') ++ w_live w.
Proof.
  intros E Hd. pose proof (run_sat _ _ _ _ _ _ _ _ _ Hc anyub _ w (choice_any _ _ _ _ _ _ _ _ _ Hc)) as Hs. unfold Msat in Hs. rewrite E in Hs.
  destruct Hs as (c' & lk & -> & _ & _ & Hl & Hlk & Hpost); [by right|]. exists c'. split; [done|].
  assert (lk = []) as ->.
  { destruct Hlk as [->|(Hec & Hex & (_ & _ & _ & Hv & _ & Hsum) & (v0 & Hv0) & v & Hvn & Hns)]; [done|]. destruct Hd as [?|[?|[Hp Hr]]]; [done|done|].
    exfalso. apply Hns. apply (seedable_alike v0); [done|done|]. unfold primary. rewrite Hp. apply elem_of_seq. lia. }
  apply cnt_perm. intros x. rewrite !cnt_app. specialize (Hl x). simpl in Hl. lia.
Qed.

(** ** Success *)

(** Computed arc numbers and cluster labels fit their types. *)
Definition fits : Prop :=
  (N.of_nat n <= cl_max cfg)%N /\ too_many_arcs cfg (n * o_size o) = false /\
  (is_exclusion (o_seed o) -> too_many_arcs cfg (n * n) = false).

(** The average seed distance is not used as radius. *)
Definition no_estimate : Prop :=
  (o_pum o = UM_IGNORE \/ o_prad o <> RM_USE_ESTIMATED) /\ (o_sum o = UM_IGNORE \/ o_2rad o <> RM_USE_ESTIMATED).

Lemma claim_succeeds w : solid P V ds n w -> args_valid cfg n o c -> fits -> no_estimate -> (exists v, seedable o n G v) ->
  exists c' w', sc_clustering cfg P ds (Some o) (Some c) w = Ok ((ER_OK, Some c'), w').
Proof.
  intros Hsol Ha (Hf1 & Hf2 & Hf3) [He1 He2] (v & Hv). pose proof Hsol as [Hnf _].
  destruct (claim_safe w Hnf) as (ec & c' & w' & E). rewrite E. destruct (decide (ec = ER_OK)) as [->|Hec]; [eauto|]. exfalso.
  pose proof (run_sat _ _ _ _ _ _ _ _ _ Hc none _ w (choice_any _ _ _ _ _ _ _ _ _ Hc)) as Hs. unfold Msat in Hs. rewrite E in Hs.
  destruct Hs as (c1 & lk & _ & _ & _ & _ & _ & Hpost); [by left|]. destruct Hpost as [(? & _)|(_ & _ & Hw)]; [done|].
  change (no_fail w /\ provider_reliable P V ds n) with (solid P V ds n w) in *.
  destruct Hw as [[He _]|[(Hb & He & _)|(Hb & _ & (g & Hg & He) & _)]].
  - destruct He as [[? _]|[[_ ?]|[[_ ?]|[[_ ?]|(_ & _ & [Hno|(Ht & t & Htn & Hlt)])]]]]; [done|done|done|congruence|by apply (Hno v)|].
    destruct Hv as [_ Hv]. rewrite decide_False in Hv by lia. destruct Hv as [Hv _]. unfold type_feasible in Hv. rewrite Forall_forall in Hv.
    assert (t ∈ used_types (tcons_of o) (o_num_types o)) as Hin by (apply elem_of_used_types; lia). specialize (Hv t Hin). simpl in Hv. unfold feasible in Hv.
    pose proof (filter_length (fun x => within_opt G (srad_of o) v x = true) (group (tlabels_of o) n t)). lia.
  - destruct He as [_ [[_ ?]|[[_ ?]|[[_ ?]|[_ Hno]]]]]; [done|done| |by apply (Hno v)].
    destruct Ha as (_ & _ & _ & Hov & _). pose proof (ov_size _ _ Hov). nia.
  - destruct He as [[_ ?]|[[_ ?]|[[_ [?|[? ?]]]|(_ & ss & _ & _ & [[? ?]|[? ?]])]]]; try done; [lia|rewrite Hf3 in *; done|tauto|tauto].
Qed.

(** ** Rejected arguments *)

Lemma claim_invalid w ec cl' w' : sc_clustering cfg P ds (Some o) (Some c) w = Ok ((ec, cl'), w') -> ~ args_valid cfg n o c ->
  ec <> ER_OK /\ cl' = Some c /\ w_live w' ≡ₚ w_live w /\ e_code (w_err w') = ec.
Proof.
  intros E Hna. pose proof (run_sat _ _ _ _ _ _ _ _ _ Hc anyub _ w (choice_any _ _ _ _ _ _ _ _ _ Hc)) as Hs. unfold Msat in Hs. rewrite E in Hs.
  destruct Hs as (c' & lk & -> & _ & _ & Hl & Hlk & Hpost); [by right|].
  assert (lk = []) as -> by (destruct Hlk as [->|(_ & _ & Ha & _)]; done).
  destruct Hpost as [(_ & ? & _)|(Hec & Ecode & [[_ ->]|[(_ & [? _] & _)|(_ & ? & _)]])]; [done| |done|done].
  splits; auto. apply cnt_perm. intros x. specialize (Hl x). simpl in Hl. lia.
Qed.

(** ** The seeds *)

Section Success.
Context (w w' : world) (c' : clustering).
Hypothesis (Hrun : sc_clustering cfg P ds (Some o) (Some c) w = Ok ((ER_OK, Some c'), w')).

(** The clustering was made from the seeds [ss] in the graph [g]: seed [i] and its
    neighbours are in cluster [i]. *)
Definition made_from (g : list (list nat)) (ss : list nat) : Prop :=
  nng_graph cfg o n G g /\ seeds_spec cfg (o_seed o) g ss /\ independent_maximal g ss /\ length ss = c_k c' /\
  forall i s x, ss !! i = Some s -> x ∈ closed g s -> x ∈ cluster c' i.

(** [x] is in the cluster of a seed that is nearest to it and within [rad]. *)
Definition at_nearest_seed (ss : list nat) (rad : option double) (x : nat) : Prop :=
  exists i s, ss !! i = Some s /\ x ∈ cluster c' i /\ within_opt G rad x s = true /\ forall s', s' ∈ ss -> s' <> s -> nearer G x s s' = true.

Definition no_seed_within (ss : list nat) (rad : option double) (x : nat) : Prop :=
  forall s, s ∈ ss -> within_opt G rad x s = false.

Lemma made_from_of L m g ss : options_valid o n -> options_sane o n -> holds cfg c' L m -> (N.of_nat m <= cl_max cfg)%N -> c_n c' = n ->
  sc_result cfg (~ solid P V ds n w) o n G D g ss L m -> made_from g ss.
Proof.
  intros Hv Hs Hh Hm Hn Hr. pose proof Hh as [_ Hk]. pose proof Hr as [H1 H2 H3 H4 H5 H6]. unfold made_from. splits; auto; [congruence|].
  intros i s x Hi Hx. rewrite (lab_cluster _ _ _ _ _ _ _ _ _ Hc c' L m); auto; [by eapply res_group|by eapply res_lt|by eapply res_len|].
  rewrite H5. by eapply lookup_lt_Some.
Qed.

Lemma claim_groups : o_seed o <> SM_BATCHES -> exists g ss, made_from g ss.
Proof.
  intros Hb. destruct (run_plain _ _ _ _ _ _ _ _ _ Hc w w' c' Hrun Hb) as (Hv & Hs & Hn & L & m & g & ss & Hh & Hm & Hr). exists g, ss. by eapply made_from_of.
Qed.

Lemma claim_closest_seed_primary : solid P V ds n w -> o_seed o <> SM_BATCHES -> o_pum o = UM_CLOSEST_SEED ->
  exists g ss, made_from g ss /\ let rad := radius_of (o_pum o) (o_prad o) (o_prad_val o) (srad_of o) (est_dist D g ss) in
    forall x, x ∈ primary o n -> (forall s, s ∈ ss -> x ∉ closed g s) ->
      at_nearest_seed ss rad x \/ (no_seed_within ss rad x /\ (o_sum o = UM_IGNORE -> unlabelled cfg c' x)).
Proof.
  intros Hsol Hb Hum. destruct (run_plain _ _ _ _ _ _ _ _ _ Hc w w' c' Hrun Hb) as (Hv & Hs & Hn & L & m & g & ss & Hh & Hm & Hr). exists g, ss.
  split; [by eapply made_from_of|]. cbv zeta. intros x Hx Hng. pose proof (primary_lt o n Hv Hs x Hx) as Hxn.
  pose proof (res_len _ _ _ _ _ _ _ _ _ Hr) as Hl. pose proof (res_lt _ _ _ _ _ _ _ _ _ Hr) as Hlt.
  destruct (res_closest_primary _ _ _ _ _ _ _ _ _ Hv Hs Hr x Hum Hx) as [(i & s & H1 & H2 & H3 & H4)|[[?|H1] H2]]; [intros (s & ? & ?); by apply (Hng s)| |done|].
  - left. exists i, s. splits; auto.
    + rewrite (lab_cluster _ _ _ _ _ _ _ _ _ Hc c' L m); auto. by eapply Hlt.
    + intros s' Hs' Hne. destruct (H4 s' Hs'); done.
  - right. split; [done|]. intros Hi. apply (holds_unlabelled cfg (co_cfg _ _ _ _ _ _ _ _ _ Hc) c' L m x); auto. lia.
Qed.

Lemma claim_closest_seed_secondary : solid P V ds n w -> o_sum o = UM_CLOSEST_SEED ->
  (o_pum o = UM_IGNORE \/ o_pum o = UM_CLOSEST_SEED \/ (o_pum o = UM_CLOSEST_ASSIGNED /\ 2 <= o_num_types o)) ->
  exists g ss, made_from g ss /\ let rad := radius_of (o_sum o) (o_2rad o) (o_2rad_val o) (srad_of o) (est_dist D g ss) in
    forall x, x < n -> (o_pum o = UM_IGNORE \/ x ∉ primary o n) -> (forall s, s ∈ ss -> x ∉ closed g s) ->
      at_nearest_seed ss rad x \/ (no_seed_within ss rad x /\ unlabelled cfg c' x).
Proof.
  intros Hsol Hum Hp. assert (o_seed o <> SM_BATCHES) as Hb.
  { intros Hb. destruct (run_batches _ _ _ _ _ _ _ _ _ Hc w w' c' Hrun Hb) as (Hv & _). destruct (ov_batches _ _ Hv Hb) as (_ & ? & _). congruence. }
  destruct (run_plain _ _ _ _ _ _ _ _ _ Hc w w' c' Hrun Hb) as (Hv & Hs & Hn & L & m & g & ss & Hh & Hm & Hr). exists g, ss.
  split; [by eapply made_from_of|]. cbv zeta. intros x Hxn Hx Hng.
  pose proof (res_len _ _ _ _ _ _ _ _ _ Hr) as Hl. pose proof (res_lt _ _ _ _ _ _ _ _ _ Hr) as Hlt.
  destruct (res_closest_secondary _ _ _ _ _ _ _ _ _ Hv Hs Hr x Hum Hxn) as [(i & s & H1 & H2 & H3 & H4)|[[?|H1] H2]]; [intros (s & ? & ?); by apply (Hng s)|naive_solver| |done|].
  - left. exists i, s. splits; auto.
    + rewrite (lab_cluster _ _ _ _ _ _ _ _ _ Hc c' L m); auto. by eapply Hlt.
    + intros s' Hs' Hne. destruct (H4 s' Hs'); done.
  - right. split; [done|]. apply (holds_unlabelled cfg (co_cfg _ _ _ _ _ _ _ _ _ Hc) c' L m x); auto. lia.
Qed.
End Success.
End More.

(** ** Batch sizes *)

(** The answer for a query point does not depend on the rest of the query. *)
Definition steady (P : provider) (V : pview P) (n k : nat) (rad : option double) : Prop :=
  exists f, nn_choice P V n k rad (fun v c => c = f v).

Lemma claim_batch_size cfg P V ds n G D o o' c1 c2 w1 w2 c1' c2' w1' w2' :
  call_ok cfg P V ds n G D o c1 -> call_ok cfg P V ds n G D o' c2 ->
  o_seed o = SM_BATCHES -> o_seed o' = SM_BATCHES -> o_size o' = o_size o -> srad_of o' = srad_of o -> o_pum o' = o_pum o ->
  o_len_prim o' = o_len_prim o -> o_prim o' = o_prim o ->
  (2 <= o_size o <= n -> steady P V n (o_size o) (srad_of o)) ->
  sc_clustering cfg P ds (Some o) (Some c1) w1 = Ok ((ER_OK, Some c1'), w1') ->
  sc_clustering cfg P ds (Some o') (Some c2) w2 = Ok ((ER_OK, Some c2'), w2') ->
  c_k c1' = c_k c2' /\ cells c1' = cells c2'.
Proof.
  intros Hc1 Hc2 Hb Hb' Esize Erad Epum Elen Eprim Hst R1 R2.
  destruct (run_batches _ _ _ _ _ _ _ _ _ Hc1 w1 w1' c1' R1 Hb) as (Hv & _). destruct (Hst (ov_size _ _ Hv)) as [f Hf].
  destruct (run_result _ _ _ _ _ _ _ _ _ Hc1 w1 w1' c1' R1 (fun v c => c = f v)) as (_ & _ & _ & L1 & m1 & H1 & _ & Hr1); [done|].
  destruct (run_result _ _ _ _ _ _ _ _ _ Hc2 w2 w2' c2' R2 (fun v c => c = f v)) as (_ & _ & _ & L2 & m2 & H2 & _ & Hr2); [by rewrite Esize, Erad|].
  rewrite decide_True in Hr1 by done. rewrite decide_True in Hr2 by done. destruct Hr1 as [A1 [_ Hr1 _ _]]. destruct Hr2 as [A2 [_ Hr2 _ _]].
  unfold primary in *. rewrite Epum, Esize, Erad, Elen, Eprim in Hr2.
  assert ((A1, L1, m1) = (A2, L2, m2)) as [= -> -> ->].
  { eapply (batch_run_det _ _ _ (fun v => arrange (stable_nng cfg) (f v))); [|exact Hr1|exact Hr2]. intros v c (c0 & (_ & _ & ->) & ->). done. }
  destruct H1 as [(b1 & E1) K1]. destruct H2 as [(b2 & E2) K2]. split; [congruence|]. unfold cells. rewrite E1, E2. done.
Qed.

(** ** Arguments rejected before anything else *)

Lemma claim_reject cfg P ds opt cl w :
  is_initialized_clustering cfg cl = false \/ p_check P ds = false \/
  (exists c, cl = Some c /\ p_num P ds <> c_n c) \/
  (exists c o, cl = Some c /\ opt = Some o /\ prim_readable o /\ (~ options_valid o (c_n c) \/ c_k c <> 0)) ->
  (cl = None \/ is_initialized_clustering cfg cl = false \/ p_check P ds = false \/ opt <> None) ->
  Msat none (sc_clustering cfg P ds opt cl) w (fun '(ec, cl') w' => ec <> ER_OK /\ cl' = cl /\ w_live w' ≡ₚ w_live w /\ e_code (w_err w') = ec).
Proof.
  intros H Hopt. unfold sc_clustering.
  assert (forall ec msg f l w0, own w0 [] w -> ec <> ER_OK -> Msat none (let* ec := make_error_msg ec msg f l in Mret (ec, cl)) w0
    (fun '(ec, cl') w' => ec <> ER_OK /\ cl' = cl /\ w_live w' ≡ₚ w_live w /\ e_code (w_err w') = ec)) as Herr.
  { intros ec msg f l w0 O0 Hec. apply Msat_bind, Msat_make_error__. intros w1 L1 O1 E1 _. apply Msat_ret. splits; auto; [|by rewrite E1].
    apply own_perm. blk. }
  assert (own w [] w) as O0 by blk.
  destruct cl as [c|]; [|by apply Herr]. destruct (is_initialized_clustering cfg (Some c)) eqn:Ei; cbn [negb]; [|by apply Herr].
  destruct (p_check P ds) eqn:Ec; cbn [negb]; [|by apply Herr].
  destruct (decide (p_num P ds <> c_n c)) as [Hn|Hn]; [by apply Herr|].
  destruct H as [?|[?|[(c0 & [= <-] & ?)|(c0 & o & [= <-] & -> & Hread & H)]]]; [done|done|done|].
  apply Msat_bind. eapply Msat_mono; [by apply Msat_check_options|]. intros ec w1 (L1 & O1 & [(-> & E1 & Hv)|(Hec & Ecode & _)]).
  - rewrite decide_False by tauto. destruct H as [H|H]; [done|]. rewrite decide_True by done. by apply Herr.
  - rewrite decide_True by done. apply Msat_ret. splits; auto. by apply own_perm.
Qed.
