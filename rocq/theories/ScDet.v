(** Without ties the result depends only on the distances and the options. *)

From stdpp Require Import prelude list sorting.
From Coq Require Import NArith ZArith.
From Verif Require Import Base SortIdx World Mem Digraph DigraphRep DigraphDiff Float Spi Options Arrays GraphSpec SeedSpec AssignSpec SeedsExcl
  Nng NngGraph NngSize NngAssign NngStage TypeCount TypeRows Batch BatchSpec BatchProof OptionsProof NngClustering
  ScSpec ScProof ClusSpec ScFacts Approx ScClaims ScClaims2 ScClaims3.

(** No two points are equally far from a point. *)
Definition no_ties (n : nat) (G : geometry) : Prop :=
  forall q x y, q < n -> x < n -> y < n -> x <> y -> nearer G q x y = true -> nearer G q y x = true -> False.

Lemma sorted_unique {A} (R : A -> A -> Prop) l1 l2 : (forall x y, x ∈ l1 -> y ∈ l1 -> R x y -> R y x -> x = y) ->
  StronglySorted R l1 -> StronglySorted R l2 -> l1 ≡ₚ l2 -> l1 = l2.
Proof.
  intros HA H1. revert l2. induction H1 as [|x l1 H1 IH Hx]; intros l2 H2 Hp.
  { by apply Permutation_nil_l in Hp. }
  destruct H2 as [|y l2 H2 Hy]; [by apply Permutation_nil_r in Hp|]. rewrite Forall_forall in Hx, Hy.
  assert (x = y) as ->.
  { assert (x ∈ y :: l2) as Hxin by (rewrite <- Hp; left). assert (y ∈ x :: l1) as Hyin by (rewrite Hp; left).
    apply elem_of_cons in Hxin as [?|Hxin]; [done|]. pose proof Hyin as Hyin'. apply elem_of_cons in Hyin' as [?|Hyin']; [done|]. apply HA; auto. left. }
  f_equal. apply IH; [|done|by apply Permutation_cons_inv in Hp]. intros a b Ha Hb. apply HA; by right.
Qed.

Lemma nodup_perm_of_sub (l k : list nat) : NoDup l -> NoDup k -> length k <= length l -> (forall x, x ∈ l -> x ∈ k) -> l ≡ₚ k.
Proof. intros Hl Hk Hn H. apply submseteq_Permutation_length_le; [done|by apply NoDup_submseteq]. Qed.

Section Det.
Context {cfg : config} (n : nat) (G : geometry).
Hypothesis (HT : no_ties n G).

Lemma nearest_unique S k q c1 c2 : q < n -> NoDup S -> Forall (fun x => x < n) S -> nearest G S k q c1 -> nearest G S k q c2 -> c1 = c2.
Proof.
  intros Hq HS Hlt H1 H2. rewrite Forall_forall in Hlt.
  assert (forall c, nearest G S k q c -> NoDup c /\ forall x, x ∈ c -> x ∈ S) as Hc.
  { intros c Hn. pose proof (nst_sub _ _ _ _ _ Hn) as Hsub. split; [by eapply submseteq_nodup|]. intros x Hx. by eapply elem_of_submseteq. }
  destruct (Hc c1 H1) as [N1 S1], (Hc c2 H2) as [N2 S2].
  apply (sorted_unique (fun x y => nearer G q x y = true)).
  - intros x y Hx Hy Hxy Hyx. destruct (decide (x = y)); [done|]. exfalso. by apply (HT q x y); auto.
  - apply sorted_of_lookup, (nst_sorted _ _ _ _ _ H1).
  - apply sorted_of_lookup, (nst_sorted _ _ _ _ _ H2).
  - apply nodup_perm_of_sub; auto. { by rewrite (nst_len _ _ _ _ _ H1), (nst_len _ _ _ _ _ H2). }
    intros x Hx. destruct (decide (x ∈ c2)) as [|Hn]; [done|]. exfalso.
    assert (exists y, y ∈ c2 /\ y ∉ c1) as (y & Hy & Hyn).
    { destruct (decide (Exists (fun y => y ∉ c1) c2)) as [He|He]; [by apply Exists_exists in He|]. exfalso.
      assert (c2 ≡ₚ c1) as Hp.
      { apply nodup_perm_of_sub; auto. { by rewrite (nst_len _ _ _ _ _ H1), (nst_len _ _ _ _ _ H2). }
        intros y Hy. destruct (decide (y ∈ c1)); [done|]. exfalso. apply He, Exists_exists. eauto. }
      apply Hn. by rewrite Hp. }
    assert (x <> y) as Hne by (intros ->; done).
    apply (HT q x y); auto; [eapply (nearest_rest G S k q c1); auto|eapply (nearest_rest G S k q c2); auto].
Qed.

Lemma seq_all : Forall (fun x => x < n) (seq 0 n).
Proof. apply Forall_forall. intros x Hx%elem_of_seq. lia. Qed.

Lemma graph_ext (g1 g2 : list (list nat)) : length g1 = n -> length g2 = n -> (forall v, v < n -> adj g1 v = adj g2 v) -> g1 = g2.
Proof.
  intros H1 H2 H. apply list_eq. intros v. destruct (decide (v < n)) as [Hv|Hv].
  - specialize (H v Hv). unfold adj in H. destruct (lookup_lt_is_Some_2 g1 v) as [r1 E1]; [lia|]. destruct (lookup_lt_is_Some_2 g2 v) as [r2 E2]; [lia|].
    rewrite E1, E2 in *. by f_equal.
  - rewrite !lookup_ge_None_2 by lia. done.
Qed.

Lemma size_graph_unique st k rad Q g1 g2 : size_graph n G st k rad Q g1 -> size_graph n G st k rad Q g2 -> g1 = g2.
Proof.
  intros H1 H2. apply graph_ext; [apply H1|apply H2|]. intros v Hv. destruct (decide (v ∈ Q /\ feasible G (seq 0 n) k rad v)) as [[HQ Hf]|Hn].
  - destruct (sg_row _ _ _ _ _ _ _ H1 v HQ Hf) as (c1 & N1 & _ & ->). destruct (sg_row _ _ _ _ _ _ _ H2 v HQ Hf) as (c2 & N2 & _ & ->).
    by rewrite (nearest_unique (seq 0 n) k v c1 c2 Hv (NoDup_seq 0 n) seq_all N1 N2).
  - by rewrite (sg_none _ _ _ _ _ _ _ H1 v Hn), (sg_none _ _ _ _ _ _ _ H2 v Hn).
Qed.

Lemma type_row_unique tl tcons rad v t c1 c2 : v < n -> type_row n tl tcons G rad v t c1 -> type_row n tl tcons G rad v t c2 -> c1 = c2.
Proof.
  intros Hv (d1 & N1 & _ & ->) (d2 & N2 & _ & ->). assert (d1 = d2) as <-; [|done]. eapply (nearest_unique (group tl n t)); eauto; [apply group_NoDup|].
  apply Forall_forall. intros x Hx%elem_of_group. tauto.
Qed.

Lemma type_graph_unique st tl tcons rad nt size Q g1 g2 : type_graph n tl tcons G rad st nt size Q g1 -> type_graph n tl tcons G rad st nt size Q g2 -> g1 = g2.
Proof.
  intros H1 H2. apply graph_ext; [apply H1|apply H2|]. intros v Hv. destruct (decide (v ∈ Q /\ typed_ok n tl tcons G rad nt size v)) as [[HQ Hf]|Hn].
  - destruct (tg_row _ _ _ _ _ _ _ _ _ _ H1 v HQ Hf) as (cs1 & e1 & C1 & E1 & ->). destruct (tg_row _ _ _ _ _ _ _ _ _ _ H2 v HQ Hf) as (cs2 & e2 & C2 & E2 & ->).
    assert (cs1 = cs2) as <-.
    { clear E1 E2. revert cs2 C2. induction C1 as [|t c ts cs1 Hc C1 IH]; intros cs2 C2; inversion_clear C2; [done|]. f_equal; [|by apply IH; eauto]. by eapply type_row_unique. }
    assert (e1 = e2) as <-; [|done]. destruct (decide (tsum nt tcons < size)); [|congruence].
    destruct E1 as (a1 & N1 & _ & ->). destruct E2 as (a2 & N2 & _ & ->). by rewrite (nearest_unique (seq 0 n) size v a1 a2 Hv (NoDup_seq 0 n) seq_all N1 N2).
  - by rewrite (tg_none _ _ _ _ _ _ _ _ _ _ H1 v Hn), (tg_none _ _ _ _ _ _ _ _ _ _ H2 v Hn).
Qed.

Lemma nng_graph_unique o g1 g2 : nng_graph cfg o n G g1 -> nng_graph cfg o n G g2 -> g1 = g2.
Proof.
  unfold nng_graph. destruct (decide (o_num_types o < 2)); [apply size_graph_unique|]. intros [H1 _] [H2 _]. by eapply type_graph_unique.
Qed.

Lemma by_search_unique S T rad L L1 L2 : length L = n -> NoDup S -> Forall (fun x => x < n) S -> by_search G S T rad L L1 -> by_search G S T rad L L2 -> L1 = L2.
Proof.
  intros Hl HS Hlt [E1 H1] [E2 H2]. apply labels_ext; [congruence|]. intros x Hx. rewrite E1 in Hx. specialize (H1 x Hx). specialize (H2 x Hx).
  destruct (decide (x ∈ T /\ ~ assigned L x /\ feasible G S 1 rad x)); [|congruence].
  destruct H1 as (y1 & N1 & _ & ->). destruct H2 as (y2 & N2 & _ & ->).
  assert ([y1] = [y2]) as [= ->]; [|done]. eapply (nearest_unique S); eauto. lia.
Qed.

Lemma stage_unique um Sa Ss T rad L L1 L2 : length L = n -> NoDup Sa -> Forall (fun x => x < n) Sa -> NoDup Ss -> Forall (fun x => x < n) Ss ->
  stage G um Sa Ss T rad L L1 -> stage G um Sa Ss T rad L L2 -> L1 = L2.
Proof. intros. destruct um; simpl in *; try congruence; [by eapply (by_search_unique Sa)|by eapply (by_search_unique Ss)]. Qed.
End Det.

(** Seed methods with a fixed order of the points. If SCC_STABLE_FINDSEED is defined
    all methods have one. *)
Definition fixed_order (cfg : config) (sm : seed_method) : Prop :=
  sm = SM_LEXICAL \/ sm = SM_INWARDS_ORDER \/ sm = SM_EXCLUSION_ORDER \/ sm = SM_BATCHES \/ stable_seeds cfg = true.

Lemma ordered_by_unique n key o1 o2 : ordered_by n key o1 -> ordered_by n key o2 -> o1 = o2.
Proof.
  intros [P1 S1] [P2 S2]. apply (sorted_unique (fun u v => key u < key v \/ (key u = key v /\ u < v))).
  - intros. lia.
  - apply sorted_of_lookup. intros. by eapply (S1 i j).
  - apply sorted_of_lookup. intros. by eapply (S2 i j).
  - by rewrite P1, P2.
Qed.

(** The seeds do not depend on where the vertices that are not eligible are
    visited. *)
Section Visits.
Context (g : list (list nat)) (elig : list nat -> nat -> Prop) (key : list nat -> nat -> nat).
Context {elig_dec : forall p v, Decision (elig p v)}.

(** Having visited [p1] is the same as having visited [p2]. *)
Definition alike (p1 p2 : list nat) : Prop :=
  greedy g [] p1 = greedy g [] p2 /\ forall u, elig p1 u -> u ∈ p1 <-> u ∈ p2.

Hypothesis (Hkey : forall p1 p2 v, alike p1 p2 -> key p1 v = key p2 v).
Hypothesis (Helig : forall p1 p2 v, greedy g [] p1 = greedy g [] p2 -> elig p1 v -> elig p2 v).
Hypothesis (Hadd : forall p v, ~ elig p v -> ~ addable g (greedy g [] p) v).
Hypothesis (Hmono : forall p v u, elig (p ++ [v]) u -> elig p u).

Lemma alike_sym p1 p2 : alike p1 p2 -> alike p2 p1.
Proof. intros [H1 H2]. split; [done|]. intros u Hu. symmetry. apply H2. by eapply Helig. Qed.

Lemma alike_skip p1 p2 v : alike p1 p2 -> ~ elig p1 v -> alike (p1 ++ [v]) p2.
Proof.
  intros [H1 H2] Hv. split.
  - rewrite greedy_snoc. rewrite decide_False by (by apply Hadd). done.
  - intros u Hu%Hmono. rewrite elem_of_app, elem_of_list_singleton, H2 by done. split; [|by left]. intros [?| ->]; done.
Qed.

Lemma alike_both p1 p2 v : alike p1 p2 -> alike (p1 ++ [v]) (p2 ++ [v]).
Proof.
  intros [H1 H2]. split; [by rewrite !greedy_snoc, H1|]. intros u Hu%Hmono. by rewrite !elem_of_app, H2 by done.
Qed.

Lemma visits_first_alike n q1 q2 p1 p2 : visits_first n elig key (p1 ++ q1) -> visits_first n elig key (p2 ++ q2) -> alike p1 p2 ->
  greedy g [] (p1 ++ q1) = greedy g [] (p2 ++ q2).
Proof.
  remember (length q1 + length q2) as k eqn:Ek. revert q1 q2 p1 p2 Ek. induction (lt_wf k) as [k _ IH]. intros q1 q2 p1 p2 Ek V1 V2 Hal.
  assert (forall p v q, visits_first n elig key (p ++ v :: q) -> v ∉ p /\ v < n) as Hfresh.
  { intros p v q [Hp _]. assert (NoDup (p ++ v :: q)) as Hnd by (rewrite Hp; apply NoDup_seq). apply NoDup_app in Hnd as (_ & Hd & _).
    split; [intros Hin; apply (Hd v Hin); left|]. assert (v ∈ p ++ v :: q) as Hin by (apply elem_of_app; right; left). rewrite Hp in Hin. apply elem_of_seq in Hin. lia. }
  assert (forall p q v, visits_first n elig key (p ++ q) -> v < n -> v ∉ p -> v ∈ q) as Hlater.
  { intros p q v [Hp _] Hv Hn. assert (v ∈ seq 0 n) as Hin by (apply elem_of_seq; lia). rewrite <- Hp in Hin. by apply elem_of_app in Hin as [?|?]. }
  assert (forall v q1', q1 = v :: q1' -> ~ elig p1 v -> greedy g [] (p1 ++ q1) = greedy g [] (p2 ++ q2)) as Hskip1.
  { intros v q1' -> Hv. rewrite (cons_middle v p1 q1') in *. rewrite (app_assoc p1 [v] q1') in *. simpl in Ek.
    apply (IH (length q1' + length q2)); auto; [lia|]. by apply alike_skip. }
  assert (forall v q2', q2 = v :: q2' -> ~ elig p2 v -> greedy g [] (p1 ++ q1) = greedy g [] (p2 ++ q2)) as Hskip2.
  { intros v q2' -> Hv. rewrite (cons_middle v p2 q2') in *. rewrite (app_assoc p2 [v] q2') in *. simpl in Ek.
    apply (IH (length q1 + length q2')); auto; [lia|]. by apply alike_sym, alike_skip; [apply alike_sym|]. }
  destruct q1 as [|v1 q1'], q2 as [|v2 q2'].
  - rewrite !app_nil_r. apply Hal.
  - destruct (decide (elig p2 v2)) as [He|He]; [|by eapply Hskip2]. exfalso. destruct (Hfresh _ _ _ V2) as [F1 F2].
    assert (v2 ∉ p1) as Hn1. { intros Hin. apply F1. apply Hal; [|done]. eapply Helig; [|exact He]. symmetry. apply Hal. }
    pose proof (Hlater _ _ _ V1 F2 Hn1) as Hx. by apply elem_of_nil in Hx.
  - destruct (decide (elig p1 v1)) as [He|He]; [|by eapply Hskip1]. exfalso. destruct (Hfresh _ _ _ V1) as [F1 F2].
    assert (v1 ∉ p2) as Hn2. { intros Hin. apply F1. by apply Hal. }
    pose proof (Hlater _ _ _ V2 F2 Hn2) as Hx. by apply elem_of_nil in Hx.
  - destruct (decide (elig p1 v1)) as [He1|He1]; [|by eapply Hskip1]. destruct (decide (elig p2 v2)) as [He2|He2]; [|by eapply Hskip2].
    assert (elig p1 v2) as He12. { eapply Helig; [|exact He2]. symmetry. apply Hal. }
    assert (elig p2 v1) as He21. { eapply Helig; [|exact He1]. apply Hal. }
    destruct (Hfresh _ _ _ V1) as [F1 F2]. destruct (Hfresh _ _ _ V2) as [F3 F4].
    assert (v1 = v2) as <-.
    { destruct (decide (v1 = v2)) as [|Hne]; [done|]. exfalso.
      assert (v2 ∈ v1 :: q1') as X1 by (eapply Hlater; [exact V1|done|]; intros Hin; apply F3; by apply Hal).
      assert (v1 ∈ v2 :: q2') as X2 by (eapply Hlater; [exact V2|done|]; intros Hin; apply F1; by apply Hal).
      apply elem_of_cons in X1 as [?|X1]; [congruence|]. apply elem_of_cons in X2 as [?|X2]; [congruence|].
      destruct V1 as [_ V1], V2 as [_ V2]. pose proof (V1 p1 v1 q1' v2 eq_refl He1 X1 He12) as Y1. pose proof (V2 p2 v2 q2' v1 eq_refl He2 X2 He21) as Y2.
      rewrite !(Hkey p1 p2) in Y1 by done. lia. }
    rewrite (cons_middle v1 p1 q1') in *. rewrite (app_assoc p1 [v1] q1') in *.
    rewrite (cons_middle v1 p2 q2') in *. rewrite (app_assoc p2 [v1] q2') in *. simpl in Ek.
    apply (IH (length q1' + length q2')); auto; [lia|]. by apply alike_both.
Qed.

Lemma visits_first_unique n o1 o2 : visits_first n elig key o1 -> visits_first n elig key o2 -> greedy g [] o1 = greedy g [] o2.
Proof. intros H1 H2. apply (visits_first_alike n o1 o2 [] []); auto. by split. Qed.
End Visits.

Lemma uncovered_mono g p v u : ~ covered g (greedy g [] (p ++ [v])) u -> ~ covered g (greedy g [] p) u.
Proof. intros H Hc. apply H. rewrite greedy_snoc. destruct (decide _); [|done]. apply covered_app. by left. Qed.

Lemma inwards_unique g n o1 o2 : visits_first n (inwards_elig g) (inwards_key g) o1 -> visits_first n (inwards_elig g) (inwards_key g) o2 ->
  greedy g [] o1 = greedy g [] o2.
Proof.
  assert (forall p v, Decision (inwards_elig g p v)) by (intros; unfold inwards_elig; apply _).
  apply visits_first_unique; auto.
  - intros p1 p2 v [H1 H2]. unfold inwards_key, arcs_from. f_equal. apply list_filter_iff. intros x. rewrite !bool_decide_eq_true.
    assert (v ∈ adj g x -> ~ covered g (greedy g [] p1) x -> x ∈ p1 <-> x ∈ p2) as Hx.
    { intros Hv Hc. apply H2. split; [|done]. intros E. rewrite E in Hv. by apply elem_of_nil in Hv. }
    rewrite <- H1. tauto.
  - intros p1 p2 v E [? ?]. split; [done|]. by rewrite <- E.
  - intros p v Hn [H1 H2]. apply Hn. split; [done|]. by apply Forall_cons in H2 as [? _].
  - intros p v u [H1 H2]. split; [done|]. by eapply uncovered_mono.
Qed.

Lemma exclusion_unique g n o1 o2 : visits_first n (exclusion_elig g) (exclusion_key g) o1 -> visits_first n (exclusion_elig g) (exclusion_key g) o2 ->
  greedy g [] o1 = greedy g [] o2.
Proof.
  assert (forall p v, Decision (exclusion_elig g p v)) by (intros; unfold exclusion_elig; apply _).
  apply visits_first_unique; auto.
  - intros p1 p2 v [H1 H2]. unfold exclusion_key. by rewrite H1.
  - intros p1 p2 v E. unfold exclusion_elig. by rewrite E.
  - intros p v u [H1 H2]. split; [done|]. eapply Forall_impl; [exact H2|]. intros x. apply uncovered_mono.
Qed.

Lemma seeds_unique cfg sm g ss1 ss2 : fixed_order cfg sm -> seeds_spec cfg sm g ss1 -> seeds_spec cfg sm g ss2 -> ss1 = ss2.
Proof.
  intros Hsm. destruct sm; cbn [seeds_spec]; try done; [congruence|..]; intros (o1 & H1 & ->) (o2 & H2 & ->).
  - by rewrite (ordered_by_unique _ _ _ _ H1 H2).
  - destruct Hsm as [?|[?|[?|[?|E]]]]; try done. rewrite E in H1, H2. by eapply inwards_unique.
  - by rewrite (ordered_by_unique _ _ _ _ H1 H2).
  - destruct Hsm as [?|[?|[?|[?|E]]]]; try done. rewrite E in H1, H2. by eapply exclusion_unique.
Qed.

Lemma batch_run_unique ign k (N : nat -> list nat -> Prop) vs s s1 s2 : (forall v c c', v ∈ vs -> N v c -> N v c' -> c = c') ->
  batch_run ign k N vs s s1 -> batch_run ign k N vs s s2 -> s1 = s2.
Proof.
  intros Hf H1. revert s2. induction H1 as [|v vs s t s1 Hst Hr IH]; intros s2 H2; inversion_clear H2 as [|? ? ? t' ? Hst' Hr']; [done|].
  assert (t = t') as <-; [|apply IH; [|done]; intros u c c' Hu; apply Hf; by right].
  assert (forall c c', N v c -> N v c' -> c = c') as Hd by (intros; eapply Hf; eauto; left).
  destruct Hst as [A L m HA|A L m c HA HN Hc|A L m c j x HA HN Hc]; inversion Hst' as [? ? ? HA'|? ? ? c' HA' HN' Hc'|? ? ? c' j' x' HA' HN' Hc']; subst; try done;
    pose proof (Hd _ _ HN HN') as E; subst.
  - done.
  - exfalso. apply list_find_Some in Hc' as (Hl & Hx & _). eapply Hc; [|exact Hx]. by eapply elem_of_list_lookup_2.
  - exfalso. apply list_find_Some in Hc as (Hl & Hx & _). eapply Hc'; [|exact Hx]. by eapply elem_of_list_lookup_2.
  - rewrite Hc in Hc'. by injection Hc' as <- <-.
Qed.

Lemma sc_result_unique {cfg} o n G D g1 g2 ss1 ss2 L1 L2 m1 m2 : options_valid o n -> options_sane o n -> no_ties n G -> fixed_order cfg (o_seed o) ->
  sc_result cfg False o n G D g1 ss1 L1 m1 -> sc_result cfg False o n G D g2 ss2 L2 m2 -> L1 = L2 /\ m1 = m2.
Proof.
  intros Hv Hs HT Hsm R1 R2. pose proof R1 as [G1 S1 I1 _ M1 (La & Lb & A1 & A2 & A3)]. pose proof R2 as [G2 S2 _ _ M2 (Lc & Ld & A4 & A5 & A6)].
  assert (g1 = g2) as <- by (by eapply nng_graph_unique). assert (ss1 = ss2) as <- by (by eapply seeds_unique). split; [|congruence].
  assert (NoDup ss1) as Hnd by (by eapply (ss_NoDup _ _ _ _ _ _ _ _ _ R1)).
  assert (Forall (fun x => x < n) ss1) as Hlt.
  { apply Forall_forall. intros s Hin. destruct (res_closed _ _ _ _ _ _ _ _ _ Hv Hs R1 s Hin) as (_ & Hlt & _). by apply Forall_cons in Hlt as [? _]. }
  set (Sa := filter (assigned (seed_labels g1 ss1 n)) (seq 0 n)) in *.
  assert (NoDup Sa) as HndA by apply NoDup_filter, NoDup_seq.
  assert (Forall (fun x => x < n) Sa) as HltA. { apply Forall_forall. intros x [_ Hx]%elem_of_list_filter. apply elem_of_seq in Hx. lia. }
  destruct A1 as [A1|[[] _]]. destruct A2 as [A2|[[] _]]. destruct A3 as [A3|[[] _]]. destruct A4 as [A4|[[] _]]. destruct A5 as [A5|[[] _]]. destruct A6 as [A6|[[] _]].
  assert (La = Lc) as <- by congruence.
  assert (length La = n) as Hl. { rewrite A1. destruct (uses_nng _ _); rewrite ?by_neighbors_length; apply seed_labels_length. }
  assert (Lb = Ld) as <- by (by eapply (stage_unique n G HT (o_pum o) Sa ss1)).
  assert (length Lb = n) as Hlb by (by rewrite (stage_length _ _ _ _ _ _ _ _ A2)).
  by eapply (stage_unique n G HT (o_sum o) Sa ss1).
Qed.

Lemma shows_same cfg c1 c2 n L : shows cfg c1 n L -> shows cfg c2 n L -> forall x, x < n -> label_of c1 x = label_of c2 x.
Proof. intros [_ H1] [_ H2] x Hx. specialize (H1 x Hx). specialize (H2 x Hx). unfold unlabelled in *. destruct (lab L x); congruence. Qed.

Lemma claim_determined cfg n G D o P1 V1 ds1 c1 w1 c1' w1' P2 V2 ds2 c2 w2 c2' w2' :
  call_ok cfg P1 V1 ds1 n G D o c1 -> call_ok cfg P2 V2 ds2 n G D o c2 -> solid P1 V1 ds1 n w1 -> solid P2 V2 ds2 n w2 ->
  no_ties n G -> fixed_order cfg (o_seed o) ->
  sc_clustering cfg P1 ds1 (Some o) (Some c1) w1 = Ok ((ER_OK, Some c1'), w1') ->
  sc_clustering cfg P2 ds2 (Some o) (Some c2) w2 = Ok ((ER_OK, Some c2'), w2') ->
  c_k c1' = c_k c2' /\ forall x, x < n -> label_of c1' x = label_of c2' x.
Proof.
  intros H1 H2 S1 S2 HT Hsm R1 R2. destruct (decide (o_seed o = SM_BATCHES)) as [Hb|Hb].
  - destruct (run_batches _ _ _ _ _ _ _ _ _ H1 w1 w1' c1' R1 Hb) as (Hv & Hs & _).
    destruct (claim_procedure_batches _ _ _ _ _ _ _ _ _ H1 _ _ _ R1 Hb) as (_ & A1 & L1 & B1 & W1).
    destruct (claim_procedure_batches _ _ _ _ _ _ _ _ _ H2 _ _ _ R2 Hb) as (_ & A2 & L2 & B2 & W2).
    assert ((A1, L1, c_k c1') = (A2, L2, c_k c2')) as E.
    { eapply batch_run_unique; [|exact B1|exact B2]. intros v c c' [_ Hvn%elem_of_seq]%elem_of_list_filter (d1 & N1 & _ & ->) (d2 & N2 & _ & ->).
      f_equal. eapply (nearest_unique n G HT (seq 0 n)); eauto; [lia|apply NoDup_seq|apply seq_all]. }
    injection E as -> -> ->. split; [done|]. by eapply shows_same.
  - destruct (run_plain _ _ _ _ _ _ _ _ _ H1 w1 w1' c1' R1 Hb) as (Hv & Hs & _).
    destruct (claim_procedure _ _ _ _ _ _ _ _ _ H1 _ _ _ R1 S1 Hb) as (g1 & ss1 & L1 & X1 & W1).
    destruct (claim_procedure _ _ _ _ _ _ _ _ _ H2 _ _ _ R2 S2 Hb) as (g2 & ss2 & L2 & X2 & W2).
    destruct (sc_result_unique _ _ _ _ _ _ _ _ _ _ _ _ Hv Hs HT Hsm X1 X2) as [-> ->]. split; [done|]. by eapply shows_same.
Qed.
