(** Radii matter only through the pairs of points within them. *)

From stdpp Require Import prelude list sorting.
From Coq Require Import NArith ZArith.
From Verif Require Import Base World Mem Digraph DigraphRep Float Spi Dist Options Arrays GraphSpec SeedSpec AssignSpec SeedsExcl
  Nng NngGraph NngSize NngAssign NngStage TypeCount TypeRows Batch BatchSpec BatchProof OptionsProof NngClustering
  ScSpec ScProof ClusSpec ScFacts Approx ScClaims ScClaims2 ScClaims3 ScDet DistProof Example1.

(** The same pairs of the first [n] points are within the radii. *)
Definition same_reach (n : nat) (G : geometry) (r r' : option double) : Prop := forall q x, q < n -> x < n -> within_opt G r q x = within_opt G r' q x.
Lemma reach_sym n G r r' : same_reach n G r r' -> same_reach n G r' r.
Proof. intros H q x Hq Hx. symmetry. by apply H. Qed.

Section Reach.
Context (n : nat) (G : geometry) (r r' : option double) (Hr : same_reach n G r r').

Lemma reach_filter q S : q < n -> Forall (fun x => x < n) S -> filter (fun x => within_opt G r q x = true) S = filter (fun x => within_opt G r' q x = true) S.
Proof.
  intros Hq. induction 1 as [|x S Hx _ IH]; [done|]. rewrite !filter_cons, IH, (Hr q x) by done. done.
Qed.
Lemma reach_feasible S k q : q < n -> Forall (fun x => x < n) S -> feasible G S k r q <-> feasible G S k r' q.
Proof. intros Hq HS. unfold feasible. by rewrite reach_filter. Qed.
Lemma reach_all q S c : q < n -> Forall (fun x => x < n) S -> c ⊆+ S -> Forall (fun x => within_opt G r q x = true) c -> Forall (fun x => within_opt G r' q x = true) c.
Proof.
  intros Hq HS Hc H. rewrite Forall_forall in *. intros x Hx. rewrite <- Hr; [by apply H|done|]. apply HS. by eapply elem_of_submseteq.
Qed.
Lemma seq_lt : Forall (fun x => x < n) (seq 0 n).
Proof. apply Forall_forall. intros x Hx%elem_of_seq. lia. Qed.
Lemma group_lt tl t : Forall (fun x => x < n) (group tl n t).
Proof. apply Forall_forall. unfold group, of_type. intros x [_ Hx%elem_of_seq]%elem_of_list_filter. lia. Qed.

Lemma reach_size st k Q g : Forall (fun x => x < n) Q -> size_graph n G st k r Q g -> size_graph n G st k r' Q g.
Proof.
  intros HQ [H1 H2 H3]. rewrite Forall_forall in HQ. constructor; [done|..].
  - intros v Hv Hf. destruct (H2 v Hv) as (c & N & F & E); [apply reach_feasible; auto using seq_lt|]. exists c. split; [done|]. split; [|done].
    eapply reach_all; [by apply HQ|exact seq_lt|by eapply nst_sub|done].
  - intros v Hv. apply H3. intros [A B]. apply Hv. split; [done|]. apply reach_feasible in B; auto using seq_lt.
Qed.
Lemma reach_types tl tcons ts v : v < n -> type_feasible n tl tcons G r ts v <-> type_feasible n tl tcons G r' ts v.
Proof. intros Hv. unfold type_feasible. apply Forall_iff. intros t. apply reach_feasible; [done|apply group_lt]. Qed.
Lemma reach_typed_ok tl tcons nt size v : v < n -> typed_ok n tl tcons G r nt size v <-> typed_ok n tl tcons G r' nt size v.
Proof. intros Hv. unfold typed_ok. rewrite reach_types by done. rewrite reach_feasible by (try done; apply seq_lt). done. Qed.
Lemma reach_type_graph tl tcons st nt size Q g : Forall (fun x => x < n) Q -> type_graph n tl tcons G r st nt size Q g -> type_graph n tl tcons G r' st nt size Q g.
Proof.
  intros HQ [H1 H2 H3]. rewrite Forall_forall in HQ. constructor; [done|..].
  - intros v Hv Hf. pose proof (HQ v Hv) as Hvn. destruct (H2 v Hv) as (cs & e & F & E & R); [by apply reach_typed_ok|]. exists cs, e. split; [|split; [|done]].
    + eapply Forall2_impl; [exact F|]. intros t c (c0 & N & A & ->). exists c0. split; [done|]. split; [|done]. eapply reach_all; [done|apply group_lt|by eapply nst_sub|done].
    + destruct (decide (tsum nt tcons < size)); [|done]. destruct E as (call & N & A & ->). exists call. split; [done|]. split; [|done]. eapply reach_all; [done|exact seq_lt|by eapply nst_sub|done].
  - intros v Hv. apply H3. intros [A B]. apply Hv. split; [done|]. apply reach_typed_ok in B; auto.
Qed.
Lemma reach_search S T L L' : Forall (fun x => x < n) S -> length L = n -> by_search G S T r L L' -> by_search G S T r' L L'.
Proof.
  intros HS Hl [H1 H2]. split; [done|]. intros x Hx. specialize (H2 x Hx). rewrite Hl in Hx. pose proof (reach_feasible S 1 x Hx HS) as Hf.
  destruct (decide (x ∈ T /\ ~ assigned L x /\ feasible G S 1 r x)) as [A|A], (decide (x ∈ T /\ ~ assigned L x /\ feasible G S 1 r' x)) as [B|B]; try tauto.
  destruct H2 as (y & N & W & E). exists y. split; [done|]. split; [|done]. rewrite <- Hr; [done|done|]. rewrite Forall_forall in HS. apply HS. eapply elem_of_submseteq; [|by eapply nst_sub]. left.
Qed.
Lemma reach_stage um Sa Ss T L L' : Forall (fun x => x < n) Sa -> Forall (fun x => x < n) Ss -> length L = n -> stage G um Sa Ss T r L L' -> stage G um Sa Ss T r' L L'.
Proof. intros HA HS Hl. destruct um; try done; by apply reach_search. Qed.
End Reach.

(** Options with other radii. *)
Definition other_radii (o : options) (m1 : radius_method) (x : double) (m2 : radius_method) (y : double) (m3 : radius_method) (z : double) : options :=
  Options (o_version o) (o_size o) (o_num_types o) (o_tcons o) (o_len_tlabels o) (o_tlabels o) (o_seed o) (o_len_prim o) (o_prim o)
    (o_pum o) (o_sum o) m1 x m2 y m3 z (o_batch o).
(** Options [o'] that differ from [o] in the radii only, with the same reach in all
    stages, whatever the estimate. *)
Definition same_reaches (n : nat) (G : geometry) (o o' : options) : Prop :=
  (exists m1 x m2 y m3 z, o' = other_radii o m1 x m2 y m3 z) /\ same_reach n G (srad_of o) (srad_of o') /\
  forall avg, same_reach n G (radius_of (o_pum o) (o_prad o) (o_prad_val o) (srad_of o) avg) (radius_of (o_pum o') (o_prad o') (o_prad_val o') (srad_of o') avg) /\
    same_reach n G (radius_of (o_sum o) (o_2rad o) (o_2rad_val o) (srad_of o) avg) (radius_of (o_sum o') (o_2rad o') (o_2rad_val o') (srad_of o') avg).

Lemma reach_result cfg o o' n G D g ss L m : options_valid o n -> options_sane o n -> same_reaches n G o o' -> sc_result cfg False o n G D g ss L m -> sc_result cfg False o' n G D g ss L m.
Proof.
  intros Hv Hs ((m1 & x & m2 & y & m3 & z & ->) & R0 & R) HR. pose proof HR as [H1 H2 H3 H4 H5 (La & Lb & A1 & A2 & A3)].
  assert (Forall (fun x => x < n) (primary o n)) as HQ by (apply Forall_forall; intros; by eapply primary_lt).
  destruct (R (est_dist D g ss)) as [R1 R2].
  assert (Forall (fun x => x < n) ss) as Hlt.
  { apply Forall_forall. intros s Hin. destruct (res_closed _ _ _ _ _ _ _ _ _ Hv Hs HR s Hin) as (_ & Hlt & _). by apply Forall_cons in Hlt as [? _]. }
  set (Sa := filter (assigned (seed_labels g ss n)) (seq 0 n)) in *.
  assert (Forall (fun x => x < n) Sa) as HltA. { apply Forall_forall. intros u [_ Hx]%elem_of_list_filter. apply elem_of_seq in Hx. lia. }
  destruct A1 as [A1|[[] _]]. destruct A2 as [A2|[[] _]]. destruct A3 as [A3|[[] _]].
  assert (length La = n) as Hl. { rewrite A1. destruct (uses_nng _ _); rewrite ?by_neighbors_length; apply seed_labels_length. }
  assert (length Lb = n) as Hlb by (by rewrite (stage_length _ _ _ _ _ _ _ _ A2)).
  constructor; try done.
  - unfold nng_graph in *. cbn [other_radii o_num_types o_size tlabels_of tcons_of o_tcons o_tlabels]. change (primary (other_radii o m1 x m2 y m3 z) n) with (primary o n).
    change (tlabels_of (other_radii o m1 x m2 y m3 z)) with (tlabels_of o). change (tcons_of (other_radii o m1 x m2 y m3 z)) with (tcons_of o).
    destruct (decide (o_num_types o < 2)); [by eapply reach_size|]. destruct H1 as [H1 Hsum]. split; [by eapply reach_type_graph|done].
  - exists La, Lb. split; [by left|]. split; left.
    + by eapply (reach_stage n G _ _ R1).
    + by eapply (reach_stage n G _ _ R2).
Qed.

Lemma filter_same (P Q : nat -> Prop) `{forall x, Decision (P x)} `{forall x, Decision (Q x)} (l : list nat) : (forall x, x ∈ l -> P x <-> Q x) -> filter P l = filter Q l.
Proof.
  induction l as [|x l IH]; intros Hpq; [done|]. rewrite !filter_cons, IH by (intros; apply Hpq; by right). specialize (Hpq x ltac:(left)).
  destruct (decide (P x)), (decide (Q x)); tauto.
Qed.
Lemma batch_run_on ign k (N N' : nat -> list nat -> Prop) vs s s' : (forall v c, v ∈ vs -> N v c -> N' v c) -> batch_run ign k N vs s s' -> batch_run ign k N' vs s s'.
Proof.
  intros H Hr. induction Hr as [|v vs s t s' Hst Hr IH]; [constructor|]. econstructor; [|apply IH; intros; apply H; [by right|done]].
  assert (forall c, N v c -> N' v c) as H' by (intros; apply H; [left|done]). destruct Hst; [by constructor|by constructor; auto|by econstructor; eauto].
Qed.

Lemma reach_seedable n G o o' v : same_reaches n G o o' -> v < n -> seedable o n G v <-> seedable o' n G v.
Proof.
  intros ((m1 & x & m2 & y & m3 & z & ->) & R0 & _) Hv. unfold seedable. cbn [other_radii o_num_types o_size]. change (primary (other_radii o m1 x m2 y m3 z) n) with (primary o n).
  apply and_iff_compat_l. destruct (decide (o_num_types o < 2)).
  - apply (reach_feasible n G _ _ R0); [lia|apply seq_lt].
  - apply (reach_typed_ok n G _ _ R0). lia.
Qed.

(** A clustering found has a seed. *)
Lemma ok_seedable cfg n G D o P V ds c w c' w' : call_ok cfg P V ds n G D o c -> solid P V ds n w ->
  sc_clustering cfg P ds (Some o) (Some c) w = Ok ((ER_OK, Some c'), w') -> exists v, v < n /\ seedable o n G v.
Proof.
  intros H S Hr. destruct (decide (o_seed o = SM_BATCHES)) as [Hb|Hb].
  - destruct (claim_procedure_batches _ _ _ _ _ _ _ _ _ H _ _ _ Hr Hb) as (_ & A & L & B & _). destruct (claim_labels _ _ _ _ _ _ _ _ _ H _ _ _ Hr) as (_ & Hk & _).
    destruct (filter (seedable o n G) (seq 0 n)) as [|v vs] eqn:E; [inversion B; lia|].
    assert (v ∈ filter (seedable o n G) (seq 0 n)) as [H1 H2%elem_of_seq]%elem_of_list_filter by (rewrite E; left). exists v. split; [lia|done].
  - destruct (run_plain _ _ _ _ _ _ _ _ _ H w w' c' Hr Hb) as (Hv & Hs & _). destruct (claim_procedure _ _ _ _ _ _ _ _ _ H _ _ _ Hr S Hb) as (g & ss & L & X & _).
    destruct ss as [|s ss]; [by destruct (sr_some _ _ _ _ _ _ _ _ _ X)|]. destruct (res_closed _ _ _ _ _ _ _ _ _ Hv Hs X s ltac:(left)) as (_ & Hlt & Hsz). apply Forall_cons in Hlt as [Hlt _].
    exists s. split; [done|]. destruct (decide (seedable o n G s)) as [|Hn]; [done|exfalso]. pose proof (ov_size _ _ Hv) as Hsize. assert (adj g s = []) as Ea.
    { pose proof (sr_graph _ _ _ _ _ _ _ _ _ X) as Hg. unfold nng_graph in Hg. unfold seedable in Hn. destruct (decide (o_num_types o < 2)); [by apply (sg_none _ _ _ _ _ _ _ Hg)|]. destruct Hg as [Hg _]. by apply (tg_none _ _ _ _ _ _ _ _ _ _ Hg). }
    unfold closed in Hsz. rewrite Ea in Hsz. simpl in Hsz. lia.
Qed.

Lemma claim_reach cfg n G D o o' P1 V1 ds1 c1 w1 c1' w1' P2 V2 ds2 c2 w2 c2' w2' : same_reaches n G o o' ->
  call_ok cfg P1 V1 ds1 n G D o c1 -> call_ok cfg P2 V2 ds2 n G D o' c2 -> solid P1 V1 ds1 n w1 -> solid P2 V2 ds2 n w2 ->
  no_ties n G -> fixed_order cfg (o_seed o) ->
  sc_clustering cfg P1 ds1 (Some o) (Some c1) w1 = Ok ((ER_OK, Some c1'), w1') ->
  sc_clustering cfg P2 ds2 (Some o') (Some c2) w2 = Ok ((ER_OK, Some c2'), w2') ->
  c_k c1' = c_k c2' /\ forall x, x < n -> label_of c1' x = label_of c2' x.
Proof.
  intros HS H1 H2 S1 S2 HT Hsm R1 R2. pose proof HS as ((m1 & x & m2 & y & m3 & z & Eo) & R0 & R). assert (o_seed o' = o_seed o) as Es by (by rewrite Eo).
  destruct (decide (o_seed o = SM_BATCHES)) as [Hb|Hb].
  - destruct (run_batches _ _ _ _ _ _ _ _ _ H1 w1 w1' c1' R1 Hb) as (Hv & Hs & _). assert (o_seed o' = SM_BATCHES) as Hb' by congruence.
    destruct (claim_procedure_batches _ _ _ _ _ _ _ _ _ H1 _ _ _ R1 Hb) as (_ & A1 & L1 & B1 & W1).
    destruct (claim_procedure_batches _ _ _ _ _ _ _ _ _ H2 _ _ _ R2 Hb') as (_ & A2 & L2 & B2 & W2).
    assert (filter (seedable o' n G) (seq 0 n) = filter (seedable o n G) (seq 0 n)) as Ef.
    { apply filter_same. intros v Hvn%elem_of_seq. symmetry. apply reach_seedable; [done|lia]. }
    assert ((A1, L1, c_k c1') = (A2, L2, c_k c2')) as E.
    { rewrite Ef in B2. assert (o_pum o' = o_pum o) as Ep by (by rewrite Eo). assert (o_size o' = o_size o) as Ez by (by rewrite Eo). rewrite Ep, Ez in B2.
      eapply (batch_run_on _ _ _ (batch_neighbors cfg n G o)) in B2.
      - eapply batch_run_unique; [|exact B1|exact B2]. intros v c c' [_ Hvn%elem_of_seq]%elem_of_list_filter (d1 & N1 & _ & ->) (d2 & N2 & _ & ->).
        f_equal. eapply (nearest_unique n G HT (seq 0 n)); eauto; [lia|apply NoDup_seq|apply seq_all].
      - intros v c [_ Hvn%elem_of_seq]%elem_of_list_filter (d & N & F & E). exists d. split; [by rewrite Eo in N|]. split; [|done].
        apply (reach_all n G _ _ (reach_sym _ _ _ _ R0) v (seq 0 n)); [lia|apply seq_lt|by eapply nst_sub|done]. }
    injection E as -> -> ->. split; [done|]. by eapply shows_same.
  - destruct (run_plain _ _ _ _ _ _ _ _ _ H1 w1 w1' c1' R1 Hb) as (Hv & Hs & _).
    destruct (claim_procedure _ _ _ _ _ _ _ _ _ H1 _ _ _ R1 S1 Hb) as (g1 & ss1 & L1 & X1 & W1).
    destruct (claim_procedure _ _ _ _ _ _ _ _ _ H2 _ _ _ R2 S2 ltac:(congruence)) as (g2 & ss2 & L2 & X2 & W2).
    pose proof (reach_result _ _ _ _ _ _ _ _ _ _ Hv Hs HS X1) as X1'. destruct (run_plain _ _ _ _ _ _ _ _ _ H2 w2 w2' c2' R2 ltac:(congruence)) as (Hv' & Hs' & _).
    rewrite <- Es in Hsm. destruct (sc_result_unique _ _ _ _ _ _ _ _ _ _ _ _ Hv' Hs' HT Hsm X1' X2) as [-> ->]. split; [done|]. by eapply shows_same.
Qed.

(** The call with the other radii succeeds as well. *)
Lemma claim_reach_ok cfg n G D o o' P1 V1 ds1 c1 w1 c1' w1' P2 V2 ds2 c2 w2 : same_reaches n G o o' ->
  call_ok cfg P1 V1 ds1 n G D o c1 -> call_ok cfg P2 V2 ds2 n G D o' c2 -> solid P1 V1 ds1 n w1 -> solid P2 V2 ds2 n w2 ->
  sc_clustering cfg P1 ds1 (Some o) (Some c1) w1 = Ok ((ER_OK, Some c1'), w1') ->
  args_valid cfg n o' c2 -> fits cfg n o' -> no_estimate o' ->
  exists c2' w2', sc_clustering cfg P2 ds2 (Some o') (Some c2) w2 = Ok ((ER_OK, Some c2'), w2').
Proof.
  intros HS H1 H2 S1 S2 R1 Ha Hf He. destruct (ok_seedable _ _ _ _ _ _ _ _ _ _ _ _ H1 S1 R1) as (v & Hv & Hsd).
  eapply claim_succeeds; eauto. exists v. by apply (reach_seedable n G o o').
Qed.

(** No pair of points is further apart than [x]. *)
Definition reaches_all (n : nat) (G : geometry) (x : double) : Prop := forall q y, q < n -> y < n -> within G x q y = true.
(** Method [m'] with value [x'] is [m] with value [x], or a supplied radius that
    reaches all points in place of none. *)
Definition widened (n : nat) (G : geometry) (m : radius_method) (x : double) (m' : radius_method) (x' : double) : Prop :=
  (m' = m /\ x' = x) \/ (m = RM_NO_RADIUS /\ m' = RM_USE_SUPPLIED /\ reaches_all n G x').

Lemma widened_reaches n G o m1 x m2 y m3 z : widened n G (o_srad o) (o_srad_val o) m1 x -> widened n G (o_prad o) (o_prad_val o) m2 y -> widened n G (o_2rad o) (o_2rad_val o) m3 z ->
  same_reaches n G o (other_radii o m1 x m2 y m3 z).
Proof.
  intros H1 H2 H3. assert (same_reach n G (srad_of o) (srad_of (other_radii o m1 x m2 y m3 z))) as R0.
  { intros q u Hq Hu. unfold srad_of. cbn [other_radii o_srad o_srad_val]. destruct H1 as [[-> ->]|(-> & -> & Hall)]; [done|]. simpl. by rewrite Hall. }
  assert (forall um m r m' r' avg, widened n G m r m' r' -> same_reach n G (radius_of um m r (srad_of o) avg) (radius_of um m' r' (srad_of (other_radii o m1 x m2 y m3 z)) avg)) as Hs.
  { intros um m r m' r' avg [[-> ->]|(-> & -> & Hall)]; destruct um; try done; try (destruct m; try done); intros q u Hq Hu; simpl; by rewrite Hall. }
  split; [by eexists _, _, _, _, _, _|]. split; [done|]. intros avg. split; by apply Hs.
Qed.

Lemma claim_wide cfg n G D o m1 x m2 y m3 z P1 V1 ds1 c1 w1 c1' w1' P2 V2 ds2 c2 w2 c2' w2' :
  widened n G (o_srad o) (o_srad_val o) m1 x -> widened n G (o_prad o) (o_prad_val o) m2 y -> widened n G (o_2rad o) (o_2rad_val o) m3 z ->
  call_ok cfg P1 V1 ds1 n G D o c1 -> call_ok cfg P2 V2 ds2 n G D (other_radii o m1 x m2 y m3 z) c2 -> solid P1 V1 ds1 n w1 -> solid P2 V2 ds2 n w2 ->
  no_ties n G -> fixed_order cfg (o_seed o) ->
  sc_clustering cfg P1 ds1 (Some o) (Some c1) w1 = Ok ((ER_OK, Some c1'), w1') ->
  sc_clustering cfg P2 ds2 (Some (other_radii o m1 x m2 y m3 z)) (Some c2) w2 = Ok ((ER_OK, Some c2'), w2') ->
  c_k c1' = c_k c2' /\ forall x, x < n -> label_of c1' x = label_of c2' x.
Proof. intros A B C. apply claim_reach. by apply widened_reaches. Qed.

(** The radii of the stages written out where the seed radius is asked for. *)
Definition written_out (o : options) : options :=
  let w m v := if decide (m = RM_USE_SEED_RADIUS) then (o_srad o, o_srad_val o) else (m, v) in
  other_radii o (o_srad o) (o_srad_val o) (w (o_prad o) (o_prad_val o)).1 (w (o_prad o) (o_prad_val o)).2 (w (o_2rad o) (o_2rad_val o)).1 (w (o_2rad o) (o_2rad_val o)).2.
Lemma written_out_reaches n G o : options_valid o n -> same_reaches n G o (written_out o).
Proof.
  intros Hv. pose proof (ov_srad _ _ Hv) as Hm. split; [by eexists _, _, _, _, _, _|]. split; [done|]. intros avg.
  assert (forall um m v, same_reach n G (radius_of um m v (srad_of o) avg)
    (radius_of um (if decide (m = RM_USE_SEED_RADIUS) then (o_srad o, o_srad_val o) else (m, v)).1 (if decide (m = RM_USE_SEED_RADIUS) then (o_srad o, o_srad_val o) else (m, v)).2 (srad_of o) avg)) as Hw.
  { intros um m v q x Hq Hx. destruct (decide (m = RM_USE_SEED_RADIUS)) as [->|]; [|done]. unfold srad_of. destruct Hm as [-> |[-> _]]; by destruct um. }
  split; apply Hw.
Qed.
Lemma claim_written_out cfg n G D o P1 V1 ds1 c1 w1 c1' w1' P2 V2 ds2 c2 w2 c2' w2' :
  call_ok cfg P1 V1 ds1 n G D o c1 -> call_ok cfg P2 V2 ds2 n G D (written_out o) c2 -> solid P1 V1 ds1 n w1 -> solid P2 V2 ds2 n w2 ->
  no_ties n G -> fixed_order cfg (o_seed o) ->
  sc_clustering cfg P1 ds1 (Some o) (Some c1) w1 = Ok ((ER_OK, Some c1'), w1') ->
  sc_clustering cfg P2 ds2 (Some (written_out o)) (Some c2) w2 = Ok ((ER_OK, Some c2'), w2') ->
  c_k c1' = c_k c2' /\ forall x, x < n -> label_of c1' x = label_of c2' x.
Proof.
  intros H1 H2 S1 S2 HT Hf R1 R2. eapply claim_reach; [|exact H1|exact H2|..]; eauto. apply written_out_reaches.
  destruct (decide (o_seed o = SM_BATCHES)) as [Hb|Hb]; [by destruct (run_batches _ _ _ _ _ _ _ _ _ H1 w1 w1' c1' R1 Hb)|by destruct (run_plain _ _ _ _ _ _ _ _ _ H1 w1 w1' c1' R1 Hb)].
Qed.

(** ** Concrete cases *)

Definition powers8 : list Z := [1; 2; 4; 8; 16; 32; 64; 128]%Z.
Lemma powers8_no_ties : no_ties 8 (eucl_geo (line powers8)).
Proof.
  intros q x y Hq Hx Hy Hne H1 H2.
  assert (forallb (fun q => forallb (fun x => forallb (fun y => bool_decide (x = y) ||
    negb (nearer (eucl_geo (line powers8)) q x y && nearer (eucl_geo (line powers8)) q y x)) (seq 0 8)) (seq 0 8)) (seq 0 8) = true) as H by by vm_compute.
  assert (forall f, forallb f (seq 0 8) = true -> forall i, i < 8 -> f i = true) as Hall by (intros f Hf i Hi; apply (proj1 (forallb_forall f _) Hf), in_seq; lia).
  pose proof (Hall _ (Hall _ (Hall _ H q Hq) x Hx) y Hy) as H3. cbv beta in H3. rewrite H1, H2, bool_decide_eq_false_2 in H3 by done. discriminate H3.
Qed.
Lemma reach_by n G r r' : forallb (fun q => forallb (fun x => bool_decide (within_opt G r q x = within_opt G r' q x)) (seq 0 n)) (seq 0 n) = true -> same_reach n G r r'.
Proof.
  intros H q x Hq Hx. assert (forall f, forallb f (seq 0 n) = true -> forall i, i < n -> f i = true) as Hall by (intros f Hf i Hi; apply (proj1 (forallb_forall f _) Hf), in_seq; lia).
  pose proof (Hall _ (Hall _ H q Hq) x Hx) as H'. by apply bool_decide_eq_true in H'.
Qed.
Definition reach_options (r1 : radius_method) (v1 : Z) (r2 : radius_method) (v2 : Z) (r3 : radius_method) (v3 : Z) : options :=
  with_methods SM_EXCLUSION_ORDER UM_CLOSEST_SEED UM_IGNORE (with_radii r1 v1 r2 v2 r3 v3 (with_size 2 default_options)).
