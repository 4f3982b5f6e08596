(** Statements about failing calls, with witnesses. *)

From stdpp Require Import prelude list sorting.
From Coq Require Import NArith ZArith.
From Verif Require Import Base World Mem Digraph DigraphRep Float Spi Dist Options Arrays GraphSpec SeedSpec AssignSpec SeedsExcl
  Nng NngGraph NngSize NngAssign NngStage TypeCount TypeRows Batch BatchSpec BatchProof OptionsProof NngClustering
  ScSpec ScProof ClusSpec ScFacts Approx ScClaims ScClaims2 DistProof Example1 Example2.

(** A statement about the result and final state. *)
Lemma Msat_none_inv {A} (m : M A) w Q : Msat none m w Q -> exists a w', m w = Ok (a, w') /\ Q a w'.
Proof. unfold Msat. destruct (m w) as [[a w']|u]; cbn [Rsat]; [eauto|done]. Qed.

Lemma check_options_exact o n w : prim_readable o -> exists ec w', check_cluster_options (Some o) n w = Ok (ec, w') /\
  w_live w' ≡ₚ w_live w /\
  ((ec = ER_OK /\ options_valid o n /\ w_err w' = w_err w) \/ (ec <> ER_OK /\ ~ options_valid o n /\ e_code (w_err w') = ec /\ options_error o n ec)).
Proof.
  intros H. apply (Msat_check_options none o n w) in H. apply Msat_none_inv in H as (ec & w' & E & _ & O & H). exists ec, w'. split; [done|].
  split; [by apply own_perm|]. naive_solver.
Qed.

Lemma default_options_rejected n : ~ options_valid default_options n.
Proof. intros []. simpl in *. lia. Qed.

Lemma reject_exact cfg P ds opt cl w :
  is_initialized_clustering cfg cl = false \/ p_check P ds = false \/
  (exists c, cl = Some c /\ p_num P ds <> c_n c) \/
  (exists c o, cl = Some c /\ opt = Some o /\ prim_readable o /\ (~ options_valid o (c_n c) \/ c_k c <> 0)) ->
  (cl = None \/ is_initialized_clustering cfg cl = false \/ p_check P ds = false \/ opt <> None) ->
  exists ec w', sc_clustering cfg P ds opt cl w = Ok ((ec, cl), w') /\ ec <> ER_OK /\ w_live w' ≡ₚ w_live w /\ e_code (w_err w') = ec.
Proof.
  intros H1 H2. pose proof (claim_reject cfg P ds opt cl w H1 H2) as H. apply Msat_none_inv in H as ([ec cl'] & w' & E & ? & -> & ? & ?). eauto 10.
Qed.

(** Runs on a line that do not succeed. *)
Definition ends (r : R (ecode * option clustering * world)) (ec : ecode) (k : nat) (labels : list Z) (live : nat) : Prop :=
  exists c' w', r = Ok ((ec, Some c'), w') /\ c_k c' = k /\ cells c' = Some <$> labels /\ length (w_live w') = live.
Definition ends_b (r : R (ecode * option clustering * world)) (ec : ecode) (k : nat) (labels : list Z) (live : nat) : bool :=
  match r with
  | Ok ((ec', Some c'), w') => bool_decide (ec' = ec) && bool_decide (c_k c' = k) && bool_decide (cells c' = Some <$> labels) && bool_decide (length (w_live w') = live)
  | _ => false
  end.
Lemma ends_by r ec k labels live : ends_b r ec k labels live = true -> ends r ec k labels live.
Proof.
  unfold ends_b. destruct r as [[[ec' [c'|]] w']|]; try done. rewrite !andb_true_iff.
  intros (((<-%bool_decide_eq_true_1 & <-%bool_decide_eq_true_1) & H3%bool_decide_eq_true_1) & <-%bool_decide_eq_true_1). exists c', w'. auto.
Qed.

(** The requirements of a claim hold for a call on a line. *)
Definition callable (l : list Z) (o : options) : Prop :=
  call_ok default_config builtin (builtin_view (line l) (length l)) (Some (line l)) (length l) (eucl_geo (line l)) (eucl (line l)) o (new_clustering (length l)).
Lemma callable_by l o : l <> [] -> finite_b l = true -> sane_b o (length l) = true -> callable l o.
Proof. intros. apply line_call; auto; [apply default_config_ok|done]. Qed.

Definition far_options (um : unassigned_method) : options :=
  with_methods SM_LEXICAL um UM_IGNORE (with_radii RM_NO_RADIUS 0 RM_USE_SUPPLIED 2 RM_NO_RADIUS 0 (with_size 2 default_options)).

(** C17. *)
Lemma radius_witness : clustered [0; 1; 10]%Z (far_options UM_CLOSEST_ASSIGNED) 1 [0; 0; 0]%Z /\
  clustered [0; 1; 10]%Z (far_options UM_IGNORE) 1 [0; 0; 4294967295]%Z /\
  forall x, x < 3 -> x <> 2 -> within (eucl_geo (line [0; 1; 10]%Z)) (d_of_Z 2) 2 x = false.
Proof.
  split; [apply clustered_by; by vm_compute|]. split; [apply clustered_by; by vm_compute|].
  intros [|[|[|x]]] Hx Hne; try lia; by vm_compute.
Qed.

(** C33. *)
Definition zero_types : options := with_types [0; 0] [0; 1; 0; 1; 0; 1; 0; 1; 0; 1; 0; 1] (with_size 3 default_options).
Lemma zero_types_valid : options_valid zero_types 12.
Proof. constructor; simpl; try done; auto; try lia; intros; splits; eauto; try lia; done. Qed.
Lemma zero_types_witness : cluster_line pts zero_types world0 = Bad Uninit.
Proof. by vm_compute. Qed.

(** C34. *)
Lemma oom_ok_witness : callable pts (with_size 3 default_options) /\
  clustered pts (with_size 3 default_options) 3 [0; 1; 0; 0; 1; 2; 1; 0; 2; 2; 1; 0]%Z /\
  ends (cluster_line pts (with_size 3 default_options) (world_fail 9)) ER_OK 3
    [0; 1; 0; 4294967295; 1; 2; 1; 4294967295; 2; 2; 4294967295; 0]%Z 1 /\
  [0; 1; 0; 0; 1; 2; 1; 0; 2; 2; 1; 0]%Z <> [0; 1; 0; 4294967295; 1; 2; 1; 4294967295; 2; 2; 4294967295; 0]%Z.
Proof.
  split; [apply callable_by; by vm_compute|]. split; [apply clustered_by; by vm_compute|]. split; [apply ends_by; by vm_compute|]. done.
Qed.

Definition excl_options : options := with_methods SM_EXCLUSION_UPDATING UM_CLOSEST_SEED UM_CLOSEST_ASSIGNED
  (with_radii RM_USE_SUPPLIED 3 RM_USE_SUPPLIED 2 RM_NO_RADIUS 0 (with_size 3 default_options)).
Lemma oom_null_witness : callable pts excl_options /\ cluster_line pts excl_options (world_fail 8) = Bad NullPtr.
Proof. split; [apply callable_by; by vm_compute|by vm_compute]. Qed.

Definition batch_options : options := with_methods SM_BATCHES UM_ANY_NEIGHBOR UM_IGNORE
  (with_radii RM_NO_RADIUS 0 RM_USE_SEED_RADIUS 0 RM_NO_RADIUS 0 (with_primary [0; 1; 2; 3; 4] (with_size 3 default_options))).
Lemma oom_batch_witness : callable pts batch_options /\ cluster_line pts batch_options (world_fail 5) = Bad NullPtr.
Proof. split; [apply callable_by; by vm_compute|by vm_compute]. Qed.

(** C35: a block is left besides the labels, which are not allocated. *)
Lemma leak_witness : callable pts excl_options /\
  exists c' w', cluster_line pts excl_options (world_fail 9) = Ok ((ER_NO_MEMORY, Some c'), w') /\ c_label c' = None /\ length (w_live w') = 1.
Proof.
  split; [apply callable_by; by vm_compute|]. eexists _, _. split; [vm_compute; reflexivity|]. done.
Qed.

(** C36, C37. *)
Definition flaky_line (o : options) : R (ecode * option clustering * world) :=
  sc_clustering default_config flaky (Some (line pts)) (Some o) (Some (new_clustering 12)) world0.
Definition flaky_callable (o : options) : Prop :=
  call_ok default_config flaky (flaky_view (line pts) 12) (Some (line pts)) 12 (eucl_geo (line pts)) (eucl (line pts)) o (new_clustering 12).
Definition second_options : options := with_methods SM_LEXICAL UM_IGNORE UM_CLOSEST_SEED (with_size 3 default_options).
Definition first_options : options := with_methods SM_LEXICAL UM_CLOSEST_SEED UM_IGNORE (with_size 3 default_options).
Lemma search_ok_witness : flaky_callable second_options /\ exists c' w',
  flaky_line second_options = Ok ((ER_OK, Some c'), w') /\ e_code (w_err w') = ER_DIST_SEARCH_ERROR /\
  cells c' = Some <$> [0; 1; 0; 4294967295; 1; 2; 1; 4294967295; 2; 2; 4294967295; 0]%Z.
Proof.
  split; [apply (flaky_call pts); by vm_compute|]. eexists _, _. split; [vm_compute; reflexivity|]. split; vm_compute; reflexivity.
Qed.
Lemma changed_witness : flaky_callable first_options /\ ends (flaky_line first_options) ER_DIST_SEARCH_ERROR 3
  [0; 1; 0; 4294967295; 1; 2; 1; 4294967295; 2; 2; 4294967295; 0]%Z 1.
Proof. split; [apply (flaky_call pts); by vm_compute|]. apply ends_by. by vm_compute. Qed.

(** ** What error codes mean, and the clustering after errors *)

Section Errors.
Context (cfg : config) (P : provider) (V : pview P) (ds : p_ds P) (n : nat) (G : geometry) (D : dist_fun) (o : options) (c : clustering).
Hypothesis (Hc : call_ok cfg P V ds n G D o c).

(** The reason for an error code when the arguments are acceptable. *)
Definition error_reason (w : world) (ec : ecode) : Prop :=
  match ec with
  | ER_NO_MEMORY => ~ no_fail w
  | ER_DIST_SEARCH_ERROR => ~ solid P V ds n w
  | ER_TOO_LARGE_PROBLEM => ~ fits cfg n o \/ (o_seed o = SM_BATCHES /\ (cl_max cfg * N.of_nat (o_size o) < N.of_nat n)%N)
  | ER_NO_SOLUTION => (forall v, ~ seedable o n G v) \/
      (exists g ss, nng_graph cfg o n G g /\ seeds_spec cfg (o_seed o) g ss /\ d_gt (est_dist D g ss) d_zero = false /\
         ((o_pum o <> UM_IGNORE /\ o_prad o = RM_USE_ESTIMATED) \/ (o_sum o <> UM_IGNORE /\ o_2rad o = RM_USE_ESTIMATED)))
  | _ => False
  end.

Lemma claim_error_code w ec cl' w' : sc_clustering cfg P ds (Some o) (Some c) w = Ok ((ec, cl'), w') -> ec <> ER_OK ->
  e_code (w_err w') = ec /\ (args_valid cfg n o c -> error_reason w ec).
Proof.
  intros E Hec. pose proof (run_sat _ _ _ _ _ _ _ _ _ Hc anyub _ w (choice_any _ _ _ _ _ _ _ _ _ Hc)) as Hs. unfold Msat in Hs. rewrite E in Hs.
  destruct Hs as (c' & lk & -> & _ & _ & _ & _ & Hpost); [by right|].
  change (no_fail w /\ provider_reliable P V ds n) with (solid P V ds n w) in *.
  destruct Hpost as [(? & _)|(_ & Hcode & Hw)]; [done|]. split; [done|]. intros Ha.
  destruct Hw as [[He _]|[(Hb & He & _)|(Hb & _ & (g & Hg & He) & _)]].
  - destruct He as [[? _]|[[-> ?]|[[-> ?]|[[-> ?]|(_ & -> & [Hno|(Ht & t & Htn & Hlt)])]]]]; simpl; auto.
    + done.
    + left. intros (_ & ? & _). congruence.
    + left. intros v [_ Hv]. rewrite decide_False in Hv by lia. destruct Hv as [Hv _]. unfold type_feasible in Hv. rewrite Forall_forall in Hv.
      assert (t ∈ used_types (tcons_of o) (o_num_types o)) as Hin by (apply elem_of_used_types; lia). specialize (Hv t Hin). simpl in Hv. unfold feasible in Hv.
      pose proof (filter_length (fun x => within_opt G (srad_of o) v x = true) (group (tlabels_of o) n t)). lia.
  - destruct He as [_ [[-> ?]|[[-> ?]|[[-> ?]|[-> Hno]]]]]; simpl; auto.
  - destruct He as [[-> ?]|[[-> ?]|[[-> Hl]|(-> & ss & ? & ? & ?)]]]; simpl; auto.
    + left. intros (H1 & _ & H3). destruct Hl as [?|[? ?]]; [lia|]. rewrite H3 in *; done.
    + right. exists g, ss. auto.
Qed.

(** After any outcome the clustering is a valid object for the same points: it has
    no clusters, or complete labels. *)
Lemma claim_still_valid w ec cl' w' : sc_clustering cfg P ds (Some o) (Some c) w = Ok ((ec, cl'), w') -> is_initialized_clustering cfg (Some c) = true ->
  exists c', cl' = Some c' /\ is_initialized_clustering cfg (Some c') = true /\ c_n c' = c_n c /\
    (c_k c' <> c_k c -> length (cells c') = n /\ forall x, x < n -> unlabelled cfg c' x \/ exists i, i < c_k c' /\ label_of c' x = Some (Z.of_nat i)).
Proof.
  intros E Hi. pose proof (run_sat _ _ _ _ _ _ _ _ _ Hc anyub _ w (choice_any _ _ _ _ _ _ _ _ _ Hc)) as Hs. unfold Msat in Hs. rewrite E in Hs.
  destruct Hs as (c' & lk & -> & _ & [K1 K2 K3] & _ & _ & Hpost); [by right|]. exists c'. split; [done|].
  assert (c_k c' = c_k c \/ (exists L m, holds cfg c' L m /\ labels_lt m L /\ length L = n /\ (N.of_nat m <= cl_max cfg)%N)) as Hk.
  { destruct Hpost as [(_ & Ha & _ & L & m & Hh & Hm & Hr)|(_ & _ & [[_ ->]|[(_ & [(_ & _ & H & _) _] & ?)|(_ & _ & _ & [?|(L & m & H1 & H2 & H3 & _ & H4)])]])].
    - right. exists L, m. pose proof Ha as (_ & _ & _ & Hv & _). pose proof (co_sane _ _ _ _ _ _ _ _ _ Hc Hv) as Hs.
      destruct (decide (o_seed o = SM_BATCHES)) as [Hb|Hb].
      + destruct Hr as [A Hr]. split; [done|]. split; [|split; [|done]]; [by eapply bres_lt|by eapply bres_len].
      + destruct Hr as (g & ss & Hr). split; [done|]. split; [by eapply res_lt|]. split; [by eapply res_len|done].
    - by left.
    - left. congruence.
    - by left.
    - right. eauto 10. }
  unfold is_initialized_clustering in *. rewrite K1, K2.
  destruct (decide (c_version c <> clustering_version)); [done|]. destruct (decide (c_n c = 0)); [done|].
  destruct (pi_max cfg <? N.of_nat (c_n c))%N; [done|]. destruct Hk as [Hk|(L & m & Hh & Hlt & Hl & Hm)].
  - rewrite Hk. destruct (cl_max cfg <? N.of_nat (c_k c))%N; [done|]. splits; auto; [|done].
    destruct (c_label c), (c_label c'); done || (by destruct (decide (0 < c_k c))).
  - pose proof Hh as [[b Hb] Ek]. rewrite Ek. replace (cl_max cfg <? N.of_nat m)%N with false by (symmetry; apply N.ltb_ge; lia).
    rewrite Hb. splits; auto. intros _. split.
    + unfold cells. rewrite Hb. cbn [a_cells]. by rewrite !fmap_length.
    + intros x Hx. destruct (lab L x) as [i|] eqn:El.
      * right. exists i. split; [by eapply Hlt|]. unfold label_of, cells. rewrite Hb. cbn [a_cells]. rewrite !list_lookup_fmap, lab_lookup by lia. by rewrite El.
      * left. unfold unlabelled, label_of, cells. rewrite Hb. cbn [a_cells]. rewrite !list_lookup_fmap, lab_lookup by lia. by rewrite El.
Qed.
End Errors.
