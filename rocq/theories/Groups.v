(** Groups of points that are far apart are not mixed. *)

From stdpp Require Import prelude list sorting.
From Coq Require Import NArith ZArith.
From Verif Require Import Base World Mem Digraph DigraphRep Float SortIdx Spi Dist Options Arrays GraphSpec SeedSpec AssignSpec SeedsExcl
  Nng NngGraph NngSize NngAssign NngStage TypeCount TypeRows Batch BatchSpec BatchProof OptionsProof NngClustering
  ScSpec ScProof ClusSpec ScFacts Approx ScClaims ScClaims2 ScClaims3 ScDet DistProof Example1 DigraphDiff.

(** [grp] gives the group of each of the first [n] points. No point is as close to
    a point of another group as to a point of its own. *)
Definition apart (n : nat) (G : geometry) (grp : nat -> nat) : Prop :=
  forall q x y, q < n -> x < n -> y < n -> grp x = grp q -> grp y <> grp q -> nearer G q y x = false.
(** Each group has at least [k] points. *)
Definition groups_of (n : nat) (grp : nat -> nat) (k : nat) : Prop :=
  forall q, q < n -> k <= length (filter (fun x => grp x = grp q) (seq 0 n)).

(** Each group has as many points of each type as required for a cluster. *)
Definition types_within (n : nat) (grp : nat -> nat) (o : options) : Prop :=
  2 <= o_num_types o -> forall q t, q < n -> t < o_num_types o -> tcon (tcons_of o) t <= length (filter (fun x => grp x = grp q) (group (tlabels_of o) n t)).

Lemma one_type n grp o : o_num_types o < 2 -> types_within n grp o.
Proof. intros H1 H2. lia. Qed.

Section Groups.
Context (n : nat) (G : geometry) (grp : nat -> nat) (k : nat).
Hypothesis (Hap : apart n G grp) (Hgk : groups_of n grp k).

Lemma nearest_group_in S j q c x : q < n -> NoDup S -> Forall (fun z => z < n) S -> j <= length (filter (fun x => grp x = grp q) S) ->
  nearest G S j q c -> x ∈ c -> x < n /\ grp x = grp q.
Proof.
  intros Hq HS HSn Hj Hc Hx. pose proof (nst_sub _ _ _ _ _ Hc) as Hsub. rewrite Forall_forall in HSn.
  assert (forall z, z ∈ c -> z < n) as Hlt. { intros z Hz. eapply elem_of_submseteq in Hz; [|exact Hsub]. auto. }
  split; [auto|]. destruct (decide (grp x = grp q)) as [?|Hne]; [done|exfalso].
  set (F := filter (fun x => grp x = grp q) S) in *.
  assert (Forall (fun z => z ∈ c) F \/ Exists (fun z => ~ z ∈ c) F) as [Hall|(y & Hy & Hyc)%Exists_exists].
  { destruct (decide (Forall (fun z => z ∈ c) F)) as [?|Hn]; [by left|right]. by apply not_Forall_Exists in Hn; [|apply _]. }
  - rewrite Forall_forall in Hall. assert (x :: F ⊆+ c) as Hl%submseteq_length.
    { apply NoDup_submseteq; [|intros z [->|Hz]%elem_of_cons; auto]. constructor; [|by apply NoDup_filter].
      intros [? _]%elem_of_list_filter. done. }
    simpl in Hl. rewrite (nst_len _ _ _ _ _ Hc) in Hl. lia.
  - apply elem_of_list_filter in Hy as [Hgy Hy]. pose proof (nearest_rest G S j q c x y HS Hc Hx Hy Hyc) as Hn.
    rewrite Hap in Hn; auto. done.
Qed.

Lemma nearest_group q c x : q < n -> nearest G (seq 0 n) k q c -> x ∈ c -> x < n /\ grp x = grp q.
Proof. intros Hq. apply nearest_group_in; auto; [apply NoDup_seq|]. apply Forall_forall. intros z Hz%elem_of_seq. lia. Qed.

Lemma self_row_group q c x : (forall y, y ∈ c -> y < n /\ grp y = grp q) -> q < n -> x ∈ self_row q c -> x < n /\ grp x = grp q.
Proof.
  intros Hc Hq Hx. unfold self_row in Hx. case_decide; [auto|]. apply elem_of_list_lookup in Hx as (j & Hj).
  apply list_lookup_insert_Some in Hj as [(_ & <- & _)|(_ & Hj)]; [done|]. apply Hc. by eapply elem_of_list_lookup_2.
Qed.

Lemma typed_group tl tcons rad st nt q r x : (forall t, t < nt -> tcon tcons t <= length (filter (fun x => grp x = grp q) (group tl n t))) ->
  q < n -> typed_adj n tl tcons G rad st nt k q r -> x ∈ r -> x < n /\ grp x = grp q.
Proof.
  intros Ht Hq (cs & e & Hcs & He & ->) Hx. apply elem_of_arrange, elem_of_list_filter in Hx as [_ [Hx|Hx]%elem_of_app].
  - apply elem_of_concat in Hx as (c & Hx & (j & Hj)%elem_of_list_lookup). destruct (Forall2_lookup_r _ _ _ _ _ Hcs Hj) as (t & Htj & c0 & Hc0 & _ & Ec).
    apply elem_of_list_lookup_2, elem_of_used_types in Htj as [Htn _].
    assert (forall y, y ∈ c0 -> y < n /\ grp y = grp q) as Hg.
    { intros y. eapply nearest_group_in; [done|apply group_NoDup| |by apply Ht|exact Hc0]. apply Forall_forall. intros z Hz%elem_of_group. tauto. }
    destruct (decide (q ∈ group tl n t)); subst c; [by eapply self_row_group|auto].
  - destruct (decide (tsum nt tcons < k)); [|subst e; by apply elem_of_nil in Hx]. destruct He as (call & Hcall & _ & ->).
    unfold extra_row in Hx. apply in_take, elem_of_list_filter in Hx as [_ Hx]. by eapply nearest_group.
Qed.

Lemma nearest_one_group S x y z : x < n -> NoDup S -> Forall (fun z => z < n) S -> z ∈ S -> grp z = grp x -> nearest G S 1 x [y] -> y ∈ S /\ grp y = grp x.
Proof.
  intros Hx HS Hlt Hz Hgz Hn. destruct (nearest_one G S x y Hn HS) as [Hy Hr]. split; [done|].
  rewrite Forall_forall in Hlt. destruct (decide (grp y = grp x)) as [?|Hne]; [done|exfalso]. destruct (Hr z Hz) as [Hr'| ->]; [|done].
  rewrite Hap in Hr'; auto. done.
Qed.

(** All points with label [i] are in the group of seed [i]. *)
Definition pure (ss : list nat) (L : labels) : Prop := forall x i s, x < n -> lab L x = Some i -> ss !! i = Some s -> grp x = grp s.

Section Graph.
Context (g : list (list nat)) (ss : list nat).
Hypothesis (Hg : forall v x, v < n -> x ∈ adj g v -> x < n /\ grp x = grp v) (Hss : Forall (fun s => s < n) ss).

Lemma closed_group v x : v < n -> x ∈ closed g v -> grp x = grp v.
Proof. intros Hv [->|Hx]%elem_of_cons; [done|]. by apply Hg. Qed.

Lemma pure_seeds : pure ss (seed_labels g ss n).
Proof.
  intros x i s Hx Hi Hs. rewrite seed_labels_lab in Hi by done. apply seed_label_Some in Hi as (s' & Hs' & Hc). assert (s' = s) as -> by congruence.
  apply closed_group; [|done]. rewrite Forall_forall in Hss. apply Hss. by eapply elem_of_list_lookup_2.
Qed.

Lemma pure_neighbors L : length L = n -> pure ss L -> pure ss (by_neighbors g L).
Proof.
  intros Hl Hp x i s Hx Hi Hs. rewrite by_neighbors_lab in Hi by lia. destruct (lab L x) as [j|] eqn:E; [eapply Hp; eauto; congruence|].
  unfold neighbor_label in Hi. destruct (list_find (assigned L) (adj g x)) as [[j y]|] eqn:Ef; [|done].
  apply list_find_Some in Ef as (Hy%elem_of_list_lookup_2 & _). destruct (Hg x y Hx Hy) as [Hy' <-]. by eapply Hp.
Qed.

Lemma pure_search S T r L L' : length L = n -> NoDup S -> Forall (fun z => z < n) S -> (forall x, x < n -> exists z, z ∈ S /\ grp z = grp x) ->
  by_search G S T r L L' -> pure ss L -> pure ss L'.
Proof.
  intros Hl HS Hlt Hcov [_ H] Hp x i s Hx Hi Hs. specialize (H x ltac:(lia)).
  destruct (decide (x ∈ T /\ ~ assigned L x /\ feasible G S 1 r x)) as [_|_]; [|rewrite H in Hi; by eapply Hp].
  destruct H as (y & Hn & _ & E). destruct (Hcov x Hx) as (z & Hz & Hgz). destruct (nearest_one_group S x y z Hx HS Hlt Hz Hgz Hn) as [Hy <-].
  rewrite Forall_forall in Hlt. rewrite E in Hi. eapply Hp; eauto.
Qed.

Lemma pure_stage um Sa T r L L' : length L = n -> NoDup Sa -> Forall (fun z => z < n) Sa -> NoDup ss ->
  (is_closest um -> forall x, x < n -> exists s, s ∈ ss /\ s ∈ Sa /\ grp s = grp x) ->
  stage G um Sa ss T r L L' -> pure ss L -> length L' = n /\ pure ss L'.
Proof.
  intros Hl HS Hlt Hnd Hcov H Hp. destruct um; simpl in H; try (subst; done).
  - split; [by destruct H; lia|]. eapply pure_search; [exact Hl|exact HS|exact Hlt| |exact H|done].
    intros x Hx. destruct (Hcov ltac:(by left) x Hx) as (s & _ & ? & ?). eauto.
  - split; [by destruct H; lia|]. eapply pure_search; [exact Hl|exact Hnd|exact Hss| |exact H|done].
    intros x Hx. destruct (Hcov ltac:(by right) x Hx) as (s & ? & _ & ?). eauto.
Qed.

Lemma pure_assignment skip nng um1 r1 T um2 r2 L : NoDup ss ->
  (is_closest um1 \/ is_closest um2 -> forall x, x < n -> exists s, s ∈ ss /\ grp s = grp x) ->
  assignment skip G n g ss nng um1 r1 T um2 r2 L -> pure ss L.
Proof.
  intros Hnd Hcov (L1 & L2 & H1 & H2 & H3). pose proof pure_seeds as Hp0. set (L0 := seed_labels g ss n) in *.
  assert (length L0 = n) as Hl0 by (unfold L0, seed_labels; by rewrite fmap_length, seq_length).
  set (Sa := filter (assigned L0) (seq 0 n)) in *.
  assert (NoDup Sa) as HndS by (apply NoDup_filter, NoDup_seq).
  assert (Forall (fun z => z < n) Sa) as HltS. { apply Forall_forall. intros z [_ Hz%elem_of_seq]%elem_of_list_filter. lia. }
  assert (is_closest um1 \/ is_closest um2 -> forall x, x < n -> exists s, s ∈ ss /\ s ∈ Sa /\ grp s = grp x) as Hcov'.
  { intros Hd x Hx. destruct (Hcov Hd x Hx) as (s & Hs & Hgs). exists s. split; [done|]. split; [|done]. rewrite Forall_forall in Hss. pose proof (Hss s Hs).
    apply elem_of_list_filter. split; [|apply elem_of_seq; lia]. unfold assigned, L0. rewrite seed_labels_lab by done. intros Hn%seed_label_None. apply Hn.
    exists s. split; [done|]. by left. }
  assert (length L1 = n /\ pure ss L1) as [Hl1 Hp1].
  { destruct H1 as [->|[_ ->]]; [|done]. destruct nng; [|done]. split; [by rewrite by_neighbors_length|by apply pure_neighbors]. }
  assert (length L2 = n /\ pure ss L2) as [Hl2 Hp2].
  { destruct H2 as [H2|[_ ->]]; [|done]. eapply (pure_stage um1 Sa); [exact Hl1|done|done|done| |exact H2|done]. auto. }
  destruct H3 as [H3|[_ ->]]; [|done]. eapply (pure_stage um2 Sa); [exact Hl2|done|done|done| |exact H3|done]. auto.
Qed.
End Graph.

End Groups.

(** ** Batches *)

Definition mixed_free (n : nat) (grp : nat -> nat) (s : bstate) : Prop :=
  length s.1.2 = n /\ (forall x i, lab s.1.2 x = Some i -> i < s.2) /\
  forall x y i, x < n -> y < n -> lab s.1.2 x = Some i -> lab s.1.2 y = Some i -> grp x = grp y.

Section BatchGroups.
Context (n : nat) (grp : nat -> nat) (k : nat) (ign : bool) (N : nat -> list nat -> Prop).
Hypothesis (HN : forall v c x, v < n -> N v c -> x ∈ c -> x < n /\ grp x = grp v).

Lemma members_group v c x : v < n -> N v c -> x ∈ members k v c -> grp x = grp v.
Proof.
  intros Hv Hc. unfold members. case_decide; [by intros; eapply HN|]. intros [Hx|Hx]%elem_of_app; [|by apply elem_of_list_singleton in Hx as ->].
  eapply HN; [done|exact Hc|]. rewrite <- (take_drop (k - 1) c). apply elem_of_app. by left.
Qed.

Lemma step_groups v s s' : v < n -> batch_step ign k N v s s' -> mixed_free n grp s -> mixed_free n grp s'.
Proof.
  intros Hv Hs (Hl & Hm & Hp). destruct Hs as [A L m HA|A L m c HA Hc Hno|A L m c j x HA Hc Hf]; simpl in *; [done| |].
  - assert (forall x, x < n -> lab (give (members k v c) m L) x = if decide (x ∈ members k v c) then Some m else lab L x) as Hlab.
    { intros x Hx. apply lab_give. lia. }
    split; [by simpl; rewrite give_length|]. split; simpl.
    + intros x i Hi. pose proof (lab_lt _ _ _ Hi) as Hx. rewrite give_length in Hx. rewrite Hlab in Hi by lia. case_decide; [simplify_eq; lia|]. apply Hm in Hi. lia.
    + intros x y i Hx Hy Hi Hj. rewrite Hlab in Hi, Hj by done. destruct (decide (x ∈ _)) as [Hxm|_]; destruct (decide (y ∈ _)) as [Hym|_].
      * by rewrite (members_group v c x), (members_group v c y).
      * simplify_eq. apply Hm in Hj. lia.
      * simplify_eq. apply Hm in Hi. lia.
      * by eapply Hp.
  - destruct ign; [done|]. apply list_find_Some in Hf as (Hx%elem_of_list_lookup_2 & _). destruct (HN v c x Hv Hc Hx) as [Hxn Hgx].
    split; [by simpl; rewrite insert_length|]. split; simpl.
    + intros y i. rewrite lab_insert by lia. case_decide; apply Hm.
    + intros y z i Hy Hz. rewrite !lab_insert by lia. intros Hi Hj. destruct (decide (y = v)) as [->|_]; destruct (decide (z = v)) as [->|_]; [done| | |by eapply Hp].
      * rewrite <- Hgx. by eapply Hp.
      * rewrite <- Hgx. by eapply Hp.
Qed.

Lemma run_groups vs s s' : Forall (fun v => v < n) vs -> batch_run ign k N vs s s' -> mixed_free n grp s -> mixed_free n grp s'.
Proof. intros Hv Hr. induction Hr as [|v vs s t s' Hs Hr IH]; [done|]. inversion_clear Hv. intros Hb. apply IH; [done|]. by eapply step_groups. Qed.
End BatchGroups.

(** ** Claims *)

Lemma claim_groups cfg P V ds n G D o c w w' c' grp : call_ok cfg P V ds n G D o c -> apart n G grp -> groups_of n grp (o_size o) -> types_within n grp o ->
  (is_closest (o_pum o) \/ is_closest (o_sum o) -> forall x, x < n -> exists v, v < n /\ grp v = grp x /\ seedable o n G v) ->
  sc_clustering cfg P ds (Some o) (Some c) w = Ok ((ER_OK, Some c'), w') ->
  forall i x y, i < c_k c' -> x ∈ cluster c' i -> y ∈ cluster c' i -> grp x = grp y.
Proof.
  intros H Hap Hgk Ht Hcov Hr i x y Hi. destruct (decide (o_seed o = SM_BATCHES)) as [Hb|Hb].
  - destruct (run_batches _ _ _ _ _ _ _ _ _ H w w' c' Hr Hb) as (Hv & Hs & Hn & L & m & A & Hh & Hm & HR). pose proof Hh as [_ Hk]. rewrite Hk in Hi.
    rewrite (holds_cluster cfg (co_cfg _ _ _ _ _ _ _ _ _ H) c' L m); auto; [|by rewrite (bres_len _ _ _ _ _ _ _ HR)|by eapply bres_lt].
    pose proof (bres_len _ _ _ _ _ _ _ HR) as Hl. unfold lab_members. rewrite Hl, !elem_of_list_filter, !elem_of_seq. intros [Hxi Hx] [Hyi Hy].
    assert (mixed_free n grp (A, L, m)) as (_ & _ & Hp); [|eapply Hp; eauto; lia].
    pose proof (br_run _ _ _ _ _ _ _ _ HR) as Hrun. eapply run_groups; [| |exact Hrun|];
      [|apply Forall_forall; intros v [_ Hvs%elem_of_seq]%elem_of_list_filter; lia|].
    + intros v c0 z Hvn (c1 & (Hc1 & _) & ->) Hz. apply elem_of_arrange in Hz. by eapply nearest_group.
    + split; [apply replicate_length|]. assert (forall z, lab (replicate n (@None nat)) z = None) as E.
      { intros z. unfold lab. destruct (replicate n None !! z) as [u|] eqn:E; [|done]. apply lookup_replicate in E as [-> _]. done. }
      simpl. split; intros z; rewrite E; done.
  - destruct (run_plain _ _ _ _ _ _ _ _ _ H w w' c' Hr Hb) as (Hv & Hs & Hn & L & m & g & ss & Hh & Hm & HR). pose proof Hh as [_ Hk]. rewrite Hk in Hi.
    rewrite (holds_cluster cfg (co_cfg _ _ _ _ _ _ _ _ _ H) c' L m); auto; [|by rewrite (res_len _ _ _ _ _ _ _ _ _ HR)|by eapply res_lt].
    pose proof (res_len _ _ _ _ _ _ _ _ _ HR) as Hl. unfold lab_members. rewrite Hl, !elem_of_list_filter, !elem_of_seq. intros [Hxi Hx] [Hyi Hy].
    pose proof HR as [Hg _ Him _ Em Ha]. pose proof Him as (Hss & Hind & Hmax).
    pose proof Hg as Hg'. unfold nng_graph in Hg'.
    assert (length g = n) as Hgl by (destruct (decide (o_num_types o < 2)); [apply Hg'|destruct Hg' as [Hg' _]; apply Hg']). rewrite Hgl in *.
    assert (forall v x, v < n -> x ∈ adj g v -> x < n /\ grp x = grp v) as Hadj.
    { intros v z Hvn Hz. destruct (decide (seedable o n G v)) as [[Hvp Hvf]|Hno]; [|rewrite (nng_graph_none o n G g v Hg Hno) in Hz; by apply elem_of_nil in Hz].
      destruct (decide (o_num_types o < 2)) as [Hty|Hty].
      - destruct (sg_row _ _ _ _ _ _ _ Hg' v Hvp Hvf) as (c0 & Hc0 & _ & E). rewrite E in Hz. apply elem_of_arrange, elem_of_list_filter in Hz as [_ Hz].
        eapply self_row_group; [|done|exact Hz]. intros u Hu. by eapply nearest_group.
      - destruct Hg' as [Hg' _]. eapply typed_group; [exact Hap|exact Hgk| |exact Hvn|exact (tg_row _ _ _ _ _ _ _ _ _ _ Hg' v Hvp Hvf)|exact Hz].
        intros t Htn. apply Ht; [lia|done|done]. }
    assert (Forall (fun s => s < n) ss) as Hsl by (eapply Forall_impl; [exact Hss|]; intros ? [? _]; done).
    assert (NoDup ss) as Hnd.
    { apply NoDup_alt. intros a b s Hsa Hsb. destruct (decide (a = b)) as [?|Hne]; [done|]. exfalso. eapply (Hind a b s s Hsa Hsb Hne s); by left. }
    assert (pure n grp ss L) as Hp.
    { eapply pure_assignment; [exact Hap|exact Hadj|exact Hsl|exact Hnd| |exact Ha].
      intros Hd z Hz. destruct (Hcov Hd z Hz) as (v & Hvn & <- & Hsd). destruct (Hmax v Hvn) as (s & u & Hsin & Hus & Huv).
      { by apply (nng_graph_seedable o n G Hv Hs g v Hg). }
      exists s. split; [done|]. rewrite Forall_forall in Hsl. rewrite <- (closed_group n grp g Hadj s u), <- (closed_group n grp g Hadj v u); auto. }
    assert (i < length ss) as [s Hsi]%lookup_lt_is_Some_2 by lia.
    rewrite (Hp x i s), (Hp y i s); auto; lia.
Qed.

Lemma claim_groups_any cfg P V ds n G D o c w w' c' grp : call_ok cfg P V ds n G D o c -> apart n G grp -> groups_of n grp (o_size o) -> types_within n grp o ->
  ~ is_closest (o_pum o) -> ~ is_closest (o_sum o) ->
  sc_clustering cfg P ds (Some o) (Some c) w = Ok ((ER_OK, Some c'), w') ->
  forall i x y, i < c_k c' -> x ∈ cluster c' i -> y ∈ cluster c' i -> grp x = grp y.
Proof. intros H Hap Hgk Ht N1 N2. eapply claim_groups; eauto. tauto. Qed.

(** Each group has a point of the list of primary points, if there is one. *)
Lemma groups_seedable n G o grp : options_valid o n -> options_sane o n -> groups_of n grp (o_size o) -> types_within n grp o ->
  o_srad o = RM_NO_RADIUS -> (forall p, o_prim o = Some p -> forall x, x < n -> exists v, v ∈ take (o_len_prim o) p /\ grp v = grp x) ->
  forall x, x < n -> exists v, v < n /\ grp v = grp x /\ seedable o n G v.
Proof.
  intros Hv Hs Hgk Ht Hr Hp x Hx.
  assert (exists v, v ∈ primary o n /\ grp v = grp x) as (v & Hvp & Hgv).
  { unfold primary, prim_list. destruct (o_prim o) as [p|] eqn:E; [by eapply Hp|]. exists x. split; [|done]. apply elem_of_seq. lia. }
  exists v. split; [by apply (primary_lt o n Hv Hs)|]. split; [done|]. split; [done|].
  assert (srad_of o = None) as -> by (unfold srad_of; by rewrite Hr).
  assert (forall S j, j <= length (filter (fun y => grp y = grp x) S) -> feasible G S j None v) as Hf.
  { intros S j Hj. unfold feasible. simpl. etrans; [exact Hj|]. etrans; [apply filter_length|]. rewrite (filter_keep (fun x => true = true)); [done|]. by apply Forall_forall. }
  destruct (decide (o_num_types o < 2)) as [Hty|Hty]; [by apply Hf, Hgk|]. split; [|intros _; by apply Hf, Hgk].
  apply Forall_forall. intros t [Htn _]%elem_of_used_types. apply Hf. apply Ht; [lia|done|done].
Qed.

Lemma run_valid cfg P V ds n G D o c w w' c' : call_ok cfg P V ds n G D o c -> sc_clustering cfg P ds (Some o) (Some c) w = Ok ((ER_OK, Some c'), w') ->
  options_valid o n /\ options_sane o n.
Proof.
  intros H Hrun. destruct (decide (o_seed o = SM_BATCHES)) as [Hb|Hb]; [destruct (run_batches _ _ _ _ _ _ _ _ _ H w w' c' Hrun Hb) as (? & ? & _)|destruct (run_plain _ _ _ _ _ _ _ _ _ H w w' c' Hrun Hb) as (? & ? & _)]; done.
Qed.

Lemma claim_groups_closest cfg P V ds n G D o c w w' c' grp : call_ok cfg P V ds n G D o c -> apart n G grp -> groups_of n grp (o_size o) -> types_within n grp o ->
  o_srad o = RM_NO_RADIUS -> (forall p, o_prim o = Some p -> forall x, x < n -> exists v, v ∈ take (o_len_prim o) p /\ grp v = grp x) ->
  sc_clustering cfg P ds (Some o) (Some c) w = Ok ((ER_OK, Some c'), w') ->
  forall i x y, i < c_k c' -> x ∈ cluster c' i -> y ∈ cluster c' i -> grp x = grp y.
Proof. intros H Hap Hgk Ht Hr Hp Hrun. destruct (run_valid _ _ _ _ _ _ _ _ _ _ _ _ H Hrun). eapply claim_groups; eauto. intros _. by eapply groups_seedable. Qed.

(** ** Concrete cases *)

Lemma apart_by n G grp : forallb (fun q => forallb (fun x => forallb (fun y => bool_decide (grp x = grp q -> grp y <> grp q -> nearer G q y x = false)) (seq 0 n)) (seq 0 n)) (seq 0 n) = true -> apart n G grp.
Proof.
  intros H q x y Hq Hx Hy. assert (forall f, forallb f (seq 0 n) = true -> forall i, i < n -> f i = true) as Hall by (intros f Hf i Hi; apply (proj1 (forallb_forall f _) Hf), in_seq; lia).
  pose proof (Hall _ (Hall _ (Hall _ H q Hq) x Hx) y Hy) as H'. by apply bool_decide_eq_true in H'.
Qed.
Lemma groups_of_by n grp k : forallb (fun q => bool_decide (k <= length (filter (fun x => grp x = grp q) (seq 0 n)))) (seq 0 n) = true -> groups_of n grp k.
Proof.
  intros H q Hq. assert (forall f, forallb f (seq 0 n) = true -> forall i, i < n -> f i = true) as Hall by (intros f Hf i Hi; apply (proj1 (forallb_forall f _) Hf), in_seq; lia).
  pose proof (Hall _ H q Hq) as H'. by apply bool_decide_eq_true in H'.
Qed.

(** Three groups: points 0, 3, 6, 9, points 1, 4, 7 and points 2, 5, 8. *)
Definition islands : list Z := [0; 101; 205; 3; 103; 209; 4; 108; 210; 11]%Z.
Definition island (x : nat) : nat := x mod 3.
Lemma islands_apart : apart 10 (eucl_geo (line islands)) island.
Proof. apply apart_by. by vm_compute. Qed.
Lemma islands_groups k : k <= 3 -> groups_of 10 island k.
Proof. intros Hk q Hq. etrans; [exact Hk|]. revert q Hq. apply groups_of_by. by vm_compute. Qed.

Definition o_isl (sm : seed_method) (pum sum : unassigned_method) (k : nat) : options := with_methods sm pum sum (with_size k default_options).
Lemma groups_primary_refuted : exists l grp o k labels x y i, apart (length l) (eucl_geo (line l)) grp /\ groups_of (length l) grp (o_size o) /\ types_within (length l) grp o /\ o_srad o = RM_NO_RADIUS /\
  clustered l o k labels /\ labels !! x = Some (Z.of_nat i) /\ labels !! y = Some (Z.of_nat i) /\ i < k /\ grp x <> grp y.
Proof.
  exists islands, island, (with_primary [0; 1; 3; 4; 6] (o_isl SM_LEXICAL UM_CLOSEST_SEED UM_CLOSEST_SEED 2)), 2, [0; 1; 1; 0; 1; 1; 0; 1; 1; 0]%Z, 1, 2, 1.
  split; [exact islands_apart|]. split; [apply islands_groups; simpl; lia|]. split; [apply one_type; simpl; lia|]. split; [done|].
  split; [apply clustered_by; by vm_compute|]. split; [done|]. split; [done|]. split; [lia|done].
Qed.
Lemma groups_types_refuted : exists l grp o k labels x y i, apart (length l) (eucl_geo (line l)) grp /\ groups_of (length l) grp (o_size o) /\
  o_prim o = None /\ o_srad o = RM_NO_RADIUS /\ o_pum o = UM_IGNORE /\ o_sum o = UM_IGNORE /\
  clustered l o k labels /\ labels !! x = Some (Z.of_nat i) /\ labels !! y = Some (Z.of_nat i) /\ i < k /\ grp x <> grp y.
Proof.
  exists islands, island, (with_types [1; 1] [0; 1; 0; 0; 1; 0; 0; 1; 0; 0] (o_isl SM_LEXICAL UM_IGNORE UM_IGNORE 2)), 3, [0; 0; 1; 4294967295; 2; 4294967295; 4294967295; 1; 4294967295; 2]%Z, 0, 1, 0.
  split; [exact islands_apart|]. split; [apply islands_groups; simpl; lia|]. do 4 (split; [done|]).
  split; [apply clustered_by; by vm_compute|]. split; [done|]. split; [done|]. split; [lia|done].
Qed.
Lemma groups_small_refuted : exists l grp o k labels x y i, apart (length l) (eucl_geo (line l)) grp /\ groups_of (length l) grp (o_size o - 1) /\ types_within (length l) grp o /\
  o_prim o = None /\ o_srad o = RM_NO_RADIUS /\ o_pum o = UM_IGNORE /\ o_sum o = UM_IGNORE /\
  clustered l o k labels /\ labels !! x = Some (Z.of_nat i) /\ labels !! y = Some (Z.of_nat i) /\ i < k /\ grp x <> grp y.
Proof.
  exists islands, island, (o_isl SM_LEXICAL UM_IGNORE UM_IGNORE 4), 2, [0; 4294967295; 1; 0; 4294967295; 1; 0; 1; 1; 0]%Z, 2, 7, 1.
  split; [exact islands_apart|]. split; [apply islands_groups; simpl; lia|]. split; [apply one_type; simpl; lia|]. do 4 (split; [done|]).
  split; [apply clustered_by; by vm_compute|]. split; [done|]. split; [done|]. split; [lia|done].
Qed.

Lemma types_within_by n grp o : forallb (fun q => forallb (fun t => bool_decide (tcon (tcons_of o) t <= length (filter (fun x => grp x = grp q) (group (tlabels_of o) n t)))) (seq 0 (o_num_types o))) (seq 0 n) = true ->
  types_within n grp o.
Proof.
  intros H _ q t Hq Ht. pose proof (proj1 (forallb_forall _ _) H q ltac:(apply in_seq; lia)) as H1.
  pose proof (proj1 (forallb_forall _ _) H1 t ltac:(apply in_seq; lia)) as H2. by apply bool_decide_eq_true in H2.
Qed.
Definition o_isl_types (sm : seed_method) (pum sum : unassigned_method) (cons : list nat) (k : nat) : options := with_types cons [0; 0; 0; 1; 1; 1; 0; 0; 0; 1] (o_isl sm pum sum k).
