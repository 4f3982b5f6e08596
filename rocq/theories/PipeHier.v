(** scc_hierarchical_clustering applied to what scc_sc_clustering and
    scc_hierarchical_clustering return. *)

From stdpp Require Import prelude list sorting.
From Coq Require Import NArith ZArith.
From Verif Require Import Base World Mem Digraph Float Spi Dist Options NngClustering Hier Util ClusSpec ScSpec ScProof ScFacts ScClaims DistProof
  Example1 FailClaims HierSpec HierFind HierDiv HierRun HierTop HierClaims BatchProof CheckProof OptionsProof StatsProof UtilClaims Pipe.

(** ** Specification *)

(** [c2] has the clusters of [c1], in some order. *)
Record same_clusters (c1 c2 : clustering) : Prop := {
  sc_number : c_k c2 = c_k c1;
  sc_there : forall i, i < c_k c1 -> exists j, j < c_k c2 /\ cluster c2 j ≡ₚ cluster c1 i;
  sc_back : forall j, j < c_k c2 -> exists i, i < c_k c1 /\ cluster c2 j ≡ₚ cluster c1 i
}.

(** Every cluster of [c2] is inside one of [c1], and they have the same points. *)
Record finer (c1 c2 : clustering) : Prop := {
  fi_inside : forall j, j < c_k c2 -> exists i, i < c_k c1 /\ forall x, x ∈ cluster c2 j -> x ∈ cluster c1 i;
  fi_points : forall x, in_cluster c1 x <-> in_cluster c2 x
}.

Lemma in_cluster_lt c x : in_cluster c x -> x < c_n c.
Proof. intros (i & _ & [_ H%elem_of_seq]%elem_of_list_filter). lia. Qed.

(** ** Counting *)

Lemma cluster_count c1 c2 : (forall i, i < c_k c1 -> exists j, j < c_k c2 /\ cluster c2 j ≡ₚ cluster c1 i) -> (forall i, i < c_k c1 -> cluster c1 i <> []) -> c_k c1 <= c_k c2.
Proof.
  intros H Hne. assert (forall m, m <= c_k c1 -> exists js, length js = m /\ NoDup js /\ Forall (fun j => j < c_k c2) js /\ forall j, j ∈ js -> exists i, i < m /\ cluster c2 j ≡ₚ cluster c1 i) as Hj.
  { induction m as [|m IH]; intros Hm; [exists []; splits; auto; [constructor|intros j Hj; by apply elem_of_nil in Hj]|]. destruct (IH ltac:(lia)) as (js & Hl & Hnd & Hlt & Hin). destruct (H m ltac:(lia)) as (j & Hj & Hp).
    exists (j :: js). splits; [simpl; lia| | |].
    - apply NoDup_cons. split; [|done]. intros Hjs. destruct (Hin j Hjs) as (i & Hi & Hp'). specialize (Hne m ltac:(lia)). destruct (cluster c1 m) as [|x l] eqn:E; [done|].
      assert (x ∈ cluster c1 m) as Hx by (rewrite E; apply elem_of_list_here). assert (x ∈ cluster c1 i) as Hx' by (rewrite <- Hp', Hp; apply elem_of_list_here).
      pose proof (cluster_unique c1 _ _ _ Hx Hx'). lia.
    - by constructor.
    - intros j' [->|Hj']%elem_of_cons; [exists m; split; [lia|done]|]. destruct (Hin j' Hj') as (i & Hi & Hp'). exists i. split; [lia|done]. }
  destruct (Hj (c_k c1) ltac:(lia)) as (js & Hl & Hnd & Hlt & _). rewrite <- Hl. pose proof (submseteq_length js (seq 0 (c_k c2))) as Hs. rewrite seq_length in Hs. apply Hs.
  apply NoDup_submseteq; [done|]. intros j Hj'. rewrite Forall_forall in Hlt. apply elem_of_seq. specialize (Hlt j Hj'). lia.
Qed.

(** ** After any clustering *)

Section Again.
Context (cfg : config) (P : provider) (V : pview P) (ds : p_ds P) (n : nat) (G : geometry) (D : dist_fun)
  (qs : world -> list (nat * double) -> list (nat * double)) (log2cap : nat -> nat -> nat) (k : nat) (batch : bool) (c : clustering).
Hypothesis (HC : hier_call cfg P V ds n G D qs k c).
Context (w w' : world) (c' : clustering).
Hypothesis (Hdup : few_duplicates n D (2 * k)).
Hypothesis (Hrun : hierarchical_clustering cfg P qs log2cap ds k batch (Some c) w = Ok ((ER_OK, Some c'), w')).

Lemma again_n : c_n c' = n.
Proof. destruct (hier_still_valid cfg P V ds n G D qs log2cap k batch c HC w _ _ _ Hrun) as (c1 & [= <-] & _ & Hn & _). clear Hrun. rewrite Hn. apply HC. Qed.

(** The labels. *)
Lemma again_labels x : x < n -> unlabelled cfg c' x \/ in_cluster c' x.
Proof.
  intros Hx. destruct (decide (c_k c = 0)) as [Hk|Hk].
  - right. by apply (hier_from_scratch cfg P V ds n G D qs log2cap k batch c HC w c' w' Hk Hdup Hrun).
  - destruct (hier_nested cfg P V ds n G D qs log2cap k batch c HC w c' w' Hk Hdup Hrun) as (_ & _ & H1 & H2). clear Hrun. destruct (hc_labels _ _ _ _ _ _ _ _ _ _ HC) as [?|[Hv _]]; [done|].
    destruct (Hv x) as (z & Hz & [->|Hlt]); [by rewrite (hc_n _ _ _ _ _ _ _ _ _ _ HC)| |].
    + left. apply H1; [done|]. unfold unlabelled, label_of. by rewrite Hz.
    + right. apply H2; [done|]. exists (Z.to_nat z). split; [lia|]. apply elem_of_list_filter. split.
      * unfold label_of. rewrite Hz. simpl. f_equal. lia.
      * apply elem_of_seq. rewrite (hc_n _ _ _ _ _ _ _ _ _ _ HC). lia.
Qed.

Lemma again_valid : labels_valid cfg c'.
Proof.
  pose proof again_labels as Hl. rewrite <- again_n in Hl. clear Hrun. intros x Hx. destruct (Hl x Hx) as [Hu|(i & Hi & Hin)].
  - unfold unlabelled, label_of in Hu. destruct (cells c' !! x) as [[z|]|]; simpl in Hu; try discriminate Hu. exists z. split; [done|]. left. by injection Hu.
  - apply elem_of_list_filter in Hin as [Hu _]. unfold label_of in Hu. destruct (cells c' !! x) as [[z|]|]; simpl in Hu; try discriminate Hu. exists z. split; [done|]. right. injection Hu as ->. lia.
Qed.

(** Whatever the start, no cluster has [2 * k] points or more. *)
Lemma again_small i : i < c_k c' -> 0 < length (cluster c' i) < 2 * k.
Proof.
  intros Hi. destruct (decide (c_k c = 0)) as [Hk|Hk].
  - destruct (hier_from_scratch cfg P V ds n G D qs log2cap k batch c HC w c' w' Hk Hdup Hrun) as [_ H]. specialize (H i Hi). pose proof (hc_size _ _ _ _ _ _ _ _ _ _ HC). clear Hrun. lia.
  - destruct (hier_nested cfg P V ds n G D qs log2cap k batch c HC w c' w' Hk Hdup Hrun) as (H & _). clear Hrun. destruct (H i Hi) as (Hne & j & Hj & _ & H1 & H2). split.
    + destruct (cluster c' i); [done|simpl; lia].
    + destruct (decide (length (cluster c j) < 2 * k)) as [Hlt|Hge]; [by rewrite (H1 Hlt)|]. apply H2. lia.
Qed.

Lemma again_call qs2 : (forall w l, qs2 w l ≡ₚ l) -> hier_call cfg P V ds n G D qs2 k c'.
Proof.
  intros Hq. destruct (hier_still_valid cfg P V ds n G D qs log2cap k batch c HC w _ _ _ Hrun) as (c1 & [= <-] & Hi & Hn & Hok & _). pose proof again_valid as Hv. pose proof again_n as Hn'. pose proof again_small as Hs.
  clear Hrun. constructor; try apply HC; auto. destruct (decide (c_k c' = 0)) as [E|E]; [by left|right]. split; [exact Hv|]. left. apply Hs. lia.
Qed.

Lemma again_same qs2 log2 batch2 w2 w3 c2 : c_k c' <> 0 -> (forall w l, qs2 w l ≡ₚ l) ->
  hierarchical_clustering cfg P qs2 log2 ds k batch2 (Some c') w2 = Ok ((ER_OK, Some c2), w3) ->
  same_clusters c' c2 /\ forall x, x < n -> unlabelled cfg c' x -> unlabelled cfg c2 x.
Proof.
  intros Hk Hq E. pose proof (again_call qs2 Hq) as HC2. pose proof again_small as Hs. destruct (hier_nested cfg P V ds n G D qs2 log2 k batch2 c' HC2 w2 c2 w3 Hk Hdup E) as (H1 & H2 & H3 & _).
  clear Hrun E. split; [|exact H3]. assert (forall i, i < c_k c' -> exists j, j < c_k c2 /\ cluster c2 j ≡ₚ cluster c' i) as Hth by (intros i Hi; apply H2; auto).
  assert (forall j, j < c_k c2 -> exists i, i < c_k c' /\ cluster c2 j ≡ₚ cluster c' i) as Hba.
  { intros j Hj. destruct (H1 j Hj) as (_ & i & Hi & _ & Hp & _). exists i. split; [done|]. apply Hp, Hs. exact Hi. }
  constructor; [|exact Hth|exact Hba]. apply Nat.le_antisymm; apply cluster_count.
  - intros j Hj. destruct (Hba j Hj) as (i & Hi & Hp). exists i. split; [done|]. by symmetry.
  - intros j Hj. apply H1. exact Hj.
  - exact Hth.
  - intros i Hi. specialize (Hs i Hi). intros F. rewrite F in Hs. simpl in Hs. lia.
Qed.

(** Checking. *)
Lemma again_checks o2 : c_k c' <> 0 -> prim_readable o2 -> options_valid o2 n -> check_sane o2 n (c_k c') -> o_num_types o2 < 2 ->
  (forall i, i < c_k c' -> o_size o2 <= length (cluster c' i)) -> (o_prim o2 = None \/ forall x, x < n -> in_cluster c' x) ->
  forall w1, exists ec out w2, check_clustering cfg (Some c') (Some o2) true w1 = Ok ((ec, out), w2) /\ w_live w2 ≡ₚ w_live w1 /\
    ((ec = ER_OK /\ out = Some true) \/ (ec = ER_NO_MEMORY /\ ~ no_fail w1)).
Proof.
  intros Hk Hr Hv Hs Ht Hsz Hp w1. pose proof again_n as Hn. pose proof again_labels as Hlab. destruct (hier_labels cfg P V ds n G D qs log2cap k batch c HC w c' w' Hrun) as [Hlen _].
  destruct (hier_still_valid cfg P V ds n G D qs log2cap k batch c HC w _ _ _ Hrun) as (c1 & [= <-] & Hi & _). clear Hrun.
  assert (check_call cfg c' o2) as Hcc.
  { constructor; auto.
    - apply HC.
    - split; [congruence|]. rewrite Hn. intros x Hx. destruct (Hlab x Hx) as [Hu|(i & _ & Hin)].
      + unfold unlabelled in Hu. by rewrite Hu.
      + apply elem_of_list_filter in Hin as [-> _]. done.
    - intros _. by rewrite Hn. }
  destruct (check_decides cfg c' o2 Hcc w1) as (ec & out & w2 & E & Hl & H). exists ec, out, w2. splits; auto. rewrite Hn in H.
  destruct H as [(-> & _ & _ & b & -> & Hb)|(_ & _ & _ & [(? & _)|?])]; [|done|by right]. left. split; [done|]. f_equal. apply Hb. constructor.
  - rewrite Hn. exact Hlab.
  - intros p i x Ep Hlt Hx. destruct Hp as [?|Hp]; [congruence|]. destruct (cs_prim _ _ _ Hs _ Ep) as [Hlp Hall]. rewrite Forall_forall in Hall. specialize (Hall x).
    destruct (Hp x) as (j & Hj & Hin). { apply Hall. apply elem_of_list_lookup. exists i. by rewrite lookup_take. }
    apply elem_of_list_filter in Hin as [Hin _]. unfold unlabelled. rewrite Hin. intros [= F].
    by apply (na_not_label cfg (hc_cfg _ _ _ _ _ _ _ _ _ _ HC) j _ (initialized_k _ _ Hi) Hj).
  - exact Hsz.
  - lia.
Qed.

Lemma scratch_checks o2 : c_k c = 0 -> prim_readable o2 -> options_valid o2 n -> check_sane o2 n (c_k c') -> o_num_types o2 < 2 -> o_size o2 <= k ->
  forall w1, exists ec out w2, check_clustering cfg (Some c') (Some o2) true w1 = Ok ((ec, out), w2) /\ w_live w2 ≡ₚ w_live w1 /\
    ((ec = ER_OK /\ out = Some true) \/ (ec = ER_NO_MEMORY /\ ~ no_fail w1)).
Proof.
  intros Hk Hr Hv Hs Ht Hsz w1. destruct (hier_from_scratch cfg P V ds n G D qs log2cap k batch c HC w c' w' Hk Hdup Hrun) as [H1 H2].
  apply again_checks; auto; [|intros i Hi; specialize (H2 i Hi); lia]. destruct (H1 0) as (i & Hi & _); [pose proof (hc_size _ _ _ _ _ _ _ _ _ _ HC); lia|lia].
Qed.
End Again.

(** ** After scc_sc_clustering *)

Section AfterSc.
Context (cfg : config) (P : provider) (V : pview P) (ds : p_ds P) (n : nat) (G : geometry) (D : dist_fun) (o : options) (c : clustering).
Hypothesis (Hc : call_ok cfg P V ds n G D o c).
Context (w w' : world) (c' : clustering).
Hypothesis (Hrun : sc_clustering cfg P ds (Some o) (Some c) w = Ok ((ER_OK, Some c'), w')).
Context (qs : world -> list (nat * double) -> list (nat * double)) (log2cap : nat -> nat -> nat) (k : nat) (batch : bool).
Hypothesis (Hsane : dist_sane G D n) (Hqs : forall w l, qs w l ≡ₚ l) (Hk : 2 <= k <= o_size o) (Hwrap : (N.of_nat (2 * k) <= u32max)%N) (Hfirst : first_fits k c').

Lemma sc_hier_call : hier_call cfg P V ds n G D qs k c'.
Proof.
  destruct (claim_labels cfg P V ds n G D o c Hc w w' c' Hrun) as (Hn & Hk1 & Hlen & Hlab & Hna).
  destruct (run_result cfg P V ds n G D o c Hc w w' c' Hrun _ (choice_any cfg P V ds n G D o c Hc)) as (Ha & _).
  pose proof (sc_initialized cfg P V ds n G D o c Hc w w' c' Hrun) as Hi. clear Hrun.
  destruct Ha as (_ & _ & _ & Hv & _). destruct (ov_size _ _ Hv) as [Hs1 Hs2]. constructor; auto; try apply Hc.
  - unfold clu_ok. unfold cells in Hlen. destruct (c_label c'); [congruence|done].
  - lia.
  - right. split; [|done]. rewrite <- Hn in Hlab. intros x Hx. destruct (Hlab x Hx) as [Hu|(i & Hi' & Hu)]; unfold unlabelled, label_of in Hu;
      (destruct (cells c' !! x) as [[z|]|]; simpl in Hu; try discriminate Hu); exists z; (split; [done|]); injection Hu as ->; [by left|right; lia].
Qed.

Hypothesis (Hdup : few_duplicates n D (2 * k)).
Context (w1 w2 : world) (c2 : clustering).
Hypothesis (Hrun2 : hierarchical_clustering cfg P qs log2cap ds k batch (Some c') w1 = Ok ((ER_OK, Some c2), w2)).

Lemma sc_then_hier : finer c' c2 /\ (forall i, i < c_k c2 -> k <= length (cluster c2 i) < 2 * k) /\ forall x, x < n -> unlabelled cfg c' x -> unlabelled cfg c2 x.
Proof.
  pose proof sc_hier_call as HC. pose proof (sc_min_size cfg P V ds n G D o c Hc w w' c' Hrun) as Hsz. destruct (claim_labels cfg P V ds n G D o c Hc w w' c' Hrun) as (Hn & Hk1 & _).
  pose proof (again_n cfg P V ds n G D qs log2cap k batch c' HC w1 w2 c2 Hrun2) as Hn2.
  destruct (hier_nested cfg P V ds n G D qs log2cap k batch c' HC w1 c2 w2 ltac:(lia) Hdup Hrun2) as (H1 & _ & H3 & H4). clear Hrun Hrun2. splits; [| |exact H3].
  - constructor.
    + intros j Hj. destruct (H1 j Hj) as (_ & i & Hi & Hsub & _). by exists i.
    + intros x. split; intros H; apply H4; auto; apply in_cluster_lt in H; lia.
  - intros i Hi. destruct (H1 i Hi) as (_ & j & Hj & _ & Ha & Hb). destruct (decide (length (cluster c' j) < 2 * k)) as [Hlt|Hge].
    + rewrite (Ha Hlt). specialize (Hsz j Hj). lia.
    + apply Hb. lia.
Qed.

Lemma sc_then_hier_some : c_k c2 <> 0.
Proof.
  destruct sc_then_hier as ([_ Hp] & _). destruct (claim_labels cfg P V ds n G D o c Hc w w' c' Hrun) as (_ & Hk1 & _). pose proof (sc_min_size cfg P V ds n G D o c Hc w w' c' Hrun 0 ltac:(lia)) as Hsz.
  clear Hrun Hrun2. destruct (cluster c' 0) as [|x l] eqn:E; [simpl in Hsz; lia|]. destruct (Hp x) as [Hin _]. destruct Hin as (j & Hj & _); [|lia].
  exists 0. split; [lia|]. rewrite E. apply elem_of_list_here.
Qed.

Lemma refined_checks o2 : prim_readable o2 -> options_valid o2 n -> check_sane o2 n (c_k c2) -> o_num_types o2 < 2 -> o_size o2 <= k -> o_prim o2 = None ->
  forall w3, exists ec out w4, check_clustering cfg (Some c2) (Some o2) true w3 = Ok ((ec, out), w4) /\ w_live w4 ≡ₚ w_live w3 /\
    ((ec = ER_OK /\ out = Some true) \/ (ec = ER_NO_MEMORY /\ ~ no_fail w3)).
Proof.
  intros Hr Hv Hs Ht Hsz Hp. destruct sc_then_hier as (_ & H & _).
  eapply again_checks; [exact sc_hier_call|exact Hdup|exact Hrun2|exact sc_then_hier_some|exact Hr|exact Hv|exact Hs|exact Ht| |by left].
  intros i Hi. specialize (H i Hi). clear Hrun Hrun2. lia.
Qed.
End AfterSc.

(** ** Particular runs *)

(** scc_sc_clustering, then scc_hierarchical_clustering twice, on a line, then
    scc_check_clustering. *)
Definition refine_line (l : list Z) (o : options) (k : nat) (batch : bool) (o2 : options) : option (clustering * clustering * clustering * option bool) :=
  match cluster_line l o world0 with
  | Ok ((ER_OK, Some c1), w1) =>
    match hier_line l k batch c1 w1 with
    | Ok ((ER_OK, Some c2), w2) =>
      match hier_line l k batch c2 w2 with
      | Ok ((ER_OK, Some c3), w3) =>
        match check_clustering default_config (Some c2) (Some o2) true w3 with Ok ((_, out), _) => Some (c1, c2, c3, out) | _ => None end
      | _ => None end
    | _ => None end
  | _ => None end.
Definition refined (l : list Z) (o : options) (k : nat) (batch : bool) (o2 : options) (Q : clustering -> clustering -> clustering -> option bool -> Prop) : Prop :=
  exists c1 c2 c3 out, refine_line l o k batch o2 = Some (c1, c2, c3, out) /\ Q c1 c2 c3 out.
Definition o74 : options := with_primary [0; 1; 2; 3; 4; 5; 6; 7; 8; 9] (with_size 3 default_options).
Definition o2_74 : options := with_size 2 default_options.

Lemma refine_run : clustered (rev pts) o74 3 [0; 1; 2; 2; 0; 1; 2; 1; 0; 0; 1; 4294967295]%Z /\ few_duplicates 12 (eucl (line (rev pts))) (2 * 2) /\
  refined (rev pts) o74 2 false o2_74 (fun c1 c2 c3 out => hier_callable (rev pts) 2 c1 /\
    c_k c2 = 5 /\ cells c2 = Some <$> [4; 1; 0; 0; 3; 2; 0; 1; 3; 4; 2; 4294967295]%Z /\
    hier_callable (rev pts) 2 c2 /\ c_k c3 = 5 /\ cells c3 = Some <$> [0; 3; 4; 4; 1; 2; 4; 3; 1; 0; 2; 4294967295]%Z /\
    options_valid o2_74 12 /\ check_sane o2_74 12 (c_k c2) /\ out = Some true).
Proof.
  split; [apply clustered_by; by vm_compute|]. split; [apply few_duplicates_by; by vm_compute|]. unfold refined.
  destruct (refine_line (rev pts) o74 2 false o2_74) as [[[[c1 c2] c3] out]|] eqn:E; vm_compute in E; [|discriminate E].
  injection E as <- <- <- <-. do 4 eexists. split; [reflexivity|].
  split; [apply hier_callable_by; try done; simpl; lia|]. do 2 (split; [by vm_compute|]).
  split; [apply hier_callable_by; try done; simpl; lia|]. do 2 (split; [by vm_compute|]).
  split; [constructor; simpl; auto; try (intros; lia); try (intros; splits; eauto; done); try (split; [done|repeat constructor]); lia|]. split; [|done]. constructor; try done; simpl; lia.
Qed.

Lemma first_refuted : exists l o k c' w', 2 <= k <= o_size o /\ few_duplicates (length l) (eucl (line l)) (2 * k) /\
  clustered l o 3 [0; 1; 0; 0; 1; 2; 1; 0; 2; 2; 1; 0]%Z /\ cluster_line l o world0 = Ok ((ER_OK, Some c'), w') /\
  exists u, hier_line l k false c' w' = Bad u.
Proof.
  exists pts, (with_size 3 default_options), 2. destruct (cluster_line pts (with_size 3 default_options) world0) as [[[[] [c'|]] w']|] eqn:E; vm_compute in E; try discriminate E.
  injection E as <- <-. do 2 eexists. split; [simpl; lia|]. split; [apply few_duplicates_by; by vm_compute|]. split; [apply clustered_by; by vm_compute|].
  split; [reflexivity|]. exists Oob. by vm_compute.
Qed.

Lemma scratch_check_run : options_valid (with_primary [3; 7; 8] o2_74) 12 /\ check_sane (with_primary [3; 7; 8] o2_74) 12 5 /\
  exists c' w', hier_line pts 2 false (new_clustering 12) world0 = Ok ((ER_OK, Some c'), w') /\ c_k c' = 5 /\
  exists w2, check_clustering default_config (Some c') (Some (with_primary [3; 7; 8] o2_74)) true w' = Ok ((ER_OK, Some true), w2).
Proof.
  split; [constructor; simpl; auto; try (intros; lia); try (intros; splits; eauto; done); try (split; [done|repeat constructor]); lia|]. split.
  - constructor; try done. intros p [= <-]. split; [simpl; lia|]. repeat constructor; lia.
  - destruct (hier_line pts 2 false (new_clustering 12) world0) as [[[[] [c'|]] w']|] eqn:E; vm_compute in E; try discriminate E.
    injection E as <- <-. do 2 eexists. split; [reflexivity|]. split; [done|]. eexists. by vm_compute.
Qed.
