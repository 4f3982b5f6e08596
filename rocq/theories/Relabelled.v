(** The numbers of clusters are names only. *)

From stdpp Require Import prelude list sorting.
From Coq Require Import NArith ZArith Floats.SpecFloat.
From Verif Require Import Base World Mem Digraph DigraphRep Float FloatFacts Spi Dist Options Arrays GraphSpec SeedSpec AssignSpec SeedsExcl
  Nng NngGraph NngSize NngAssign NngStage TypeCount TypeRows Batch BatchSpec BatchProof OptionsProof NngClustering
  ScSpec ScProof ClusSpec ScFacts ScClaims ScClaims2 DistProof DistClaims Example1 FailClaims Hier HierTop HierClaims Util CheckProof StatsProof UtilClaims.

(** Clusterings [c] and [c'] of the same points: cluster [j] of [c] is cluster [p j] of
    [c'], for a permutation [p] with inverse [q]. Labels that are of no cluster are the same. *)
Record relabelled (c c' : clustering) (p q : nat -> nat) : Prop := {
  rl_n : c_n c' = c_n c;
  rl_k : c_k c' = c_k c;
  rl_perm : forall j, j < c_k c -> p j < c_k c /\ q j < c_k c /\ q (p j) = j /\ p (q j) = j;
  rl_in : forall x j, x < c_n c -> j < c_k c -> label_of c x = Some (Z.of_nat j) -> label_of c' x = Some (Z.of_nat (p j));
  rl_out : forall x, x < c_n c -> (forall j, j < c_k c -> label_of c x <> Some (Z.of_nat j)) -> label_of c' x = label_of c x
}.

Lemma label_dec c x : (exists j, j < c_k c /\ label_of c x = Some (Z.of_nat j)) \/ forall j, j < c_k c -> label_of c x <> Some (Z.of_nat j).
Proof.
  destruct (label_of c x) as [z|] eqn:E; [|by right]. destruct (decide (0 <= z < Z.of_nat (c_k c))%Z) as [Hz|Hz].
  - left. exists (Z.to_nat z). split; [lia|]. by rewrite Z2Nat.id by lia.
  - right. intros j Hj [= ->]. lia.
Qed.

Lemma relabelled_sym c c' p q : relabelled c c' p q -> relabelled c' c q p.
Proof.
  intros [Hn Hk Hp Hi Ho]. constructor; rewrite ?Hn, ?Hk; try done.
  - intros j Hj. destruct (Hp j Hj) as (? & ? & ? & ?). auto.
  - intros x j Hx Hj E. destruct (label_dec c x) as [(i & Hi' & Ei)|Hno].
    + rewrite (Hi x i Hx Hi' Ei) in E. injection E as E. apply Nat2Z.inj in E. subst j. destruct (Hp i Hi') as (_ & _ & -> & _). done.
    + exfalso. rewrite (Ho x Hx Hno) in E. by apply (Hno j).
  - intros x Hx Hno. destruct (label_dec c x) as [(i & Hi' & Ei)|Hno']; [|symmetry; by apply Ho]. exfalso. apply (Hno (p i)); [by apply Hp|]. by apply Hi.
Qed.

Section Relabelled.
Context (c c' : clustering) (p q : nat -> nat) (H : relabelled c c' p q).

Lemma same_cluster j : j < c_k c -> cluster c' (p j) = cluster c j.
Proof.
  intros Hj. destruct H as [Hn Hk Hp Hi Ho]. unfold cluster. rewrite Hn. apply filter_ext_in. intros x Hx%elem_of_seq.
  destruct (label_dec c x) as [(i & Hi' & Ei)|Hno].
  - rewrite (Hi x i), Ei by (done || lia). split; intros [= E]; apply Nat2Z.inj in E.
    + destruct (Hp i Hi') as (_ & _ & <- & _), (Hp j Hj) as (_ & _ & <- & _). by rewrite E.
    + by rewrite E.
  - rewrite (Ho x) by (done || lia). split; intros E; exfalso; [|by apply (Hno j)]. apply (Hno (p j)); [by apply Hp|done].
Qed.

Lemma same_mates x y : mates c x y -> mates c' x y.
Proof. intros (Hne & j & Hj & Hx & Hy). split; [done|]. exists (p j). rewrite same_cluster by done. split; [|done]. rewrite (rl_k _ _ _ _ H). by apply (rl_perm _ _ _ _ H). Qed.

Lemma populated_le : length (filter (fun j => cluster c j <> []) (seq 0 (c_k c))) <= length (filter (fun j => cluster c' j <> []) (seq 0 (c_k c'))).
Proof.
  rewrite <- (fmap_length p). apply submseteq_length, NoDup_submseteq.
  - apply NoDup_fmap_2_strong; [|apply NoDup_filter, NoDup_seq]. intros i j [_ Hi%elem_of_seq]%elem_of_list_filter [_ Hj%elem_of_seq]%elem_of_list_filter E.
    destruct (rl_perm _ _ _ _ H i) as (_ & _ & <- & _); [lia|]. destruct (rl_perm _ _ _ _ H j) as (_ & _ & <- & _); [lia|]. by rewrite E.
  - intros y (j & -> & Hj)%elem_of_list_fmap. apply elem_of_list_filter in Hj as [Hc Hj%elem_of_seq]. apply elem_of_list_filter. rewrite same_cluster by lia. split; [done|].
    apply elem_of_seq. rewrite (rl_k _ _ _ _ H). pose proof (rl_perm _ _ _ _ H j). lia.
Qed.

Section Cfg.
Context (cfg : config) (Hcfg : config_ok cfg) (Hk : (N.of_nat (c_k c) <= cl_max cfg)%N).

Lemma na_out x : x < c_n c -> unlabelled cfg c x -> unlabelled cfg c' x.
Proof.
  unfold unlabelled. intros Hx E. rewrite (rl_out _ _ _ _ H); auto. intros j Hj. rewrite E. intros [= E']. revert E'. by apply (na_not_label cfg Hcfg j (c_k c)).
Qed.
End Cfg.
End Relabelled.

Section Both.
Context (c c' : clustering) (p q : nat -> nat) (H : relabelled c c' p q) (cfg : config) (Hcfg : config_ok cfg) (Hk : (N.of_nat (c_k c) <= cl_max cfg)%N).

Lemma same_na x : x < c_n c -> unlabelled cfg c x <-> unlabelled cfg c' x.
Proof. intros Hx. split; [by apply (na_out c c' p q)|]. apply (na_out c' c q p (relabelled_sym _ _ _ _ H)); [done|by rewrite (rl_k _ _ _ _ H)|by rewrite (rl_n _ _ _ _ H)]. Qed.

Lemma cluster_back j : j < c_k c' -> q j < c_k c /\ cluster c (q j) = cluster c' j.
Proof. intros Hj. split; [|by apply (same_cluster c' c q p (relabelled_sym _ _ _ _ H))]. rewrite (rl_k _ _ _ _ H) in Hj. by apply (rl_perm _ _ _ _ H). Qed.

Lemma same_passes o : check_sane o (c_n c) (c_k c) -> passes cfg c o -> passes cfg c' o.
Proof.
  intros Hs [P1 P2 P3 P4]. constructor.
  - intros x Hx. rewrite (rl_n _ _ _ _ H) in Hx. destruct (P1 x Hx) as [Hu|(j & Hj & Hxj)]; [left; by apply same_na|]. right. exists (p j). rewrite (same_cluster c c' p q H) by done.
    split; [|done]. rewrite (rl_k _ _ _ _ H). by apply (rl_perm _ _ _ _ H).
  - intros l i x Hl Hi Hx Hu. apply (P2 l i x Hl Hi Hx). destruct (cs_prim _ _ _ Hs l Hl) as [_ Hlt]. apply same_na; [|done]. rewrite Forall_forall in Hlt. apply Hlt.
    apply (elem_of_list_lookup_2 _ i). by rewrite lookup_take.
  - intros i Hi. destruct (cluster_back i Hi) as [Hq <-]. by apply P3.
  - intros Ht i t m Hi. destruct (cluster_back i Hi) as [Hq <-]. by apply P4.
Qed.
End Both.

Lemma relabelled_check cfg c c' p q o w1 w2 w1' w2' b b' : relabelled c c' p q -> check_call cfg c o -> check_call cfg c' o ->
  check_clustering cfg (Some c) (Some o) true w1 = Ok ((ER_OK, Some b), w1') -> check_clustering cfg (Some c') (Some o) true w2 = Ok ((ER_OK, Some b'), w2') -> b = b'.
Proof.
  intros H C1 C2 E1 E2. destruct (check_decides _ _ _ C1 w1) as (ec & out & w & X & _ & [(-> & O1 & _ & b1 & -> & P1)|(N & _)]); rewrite E1 in X; injection X; [|by intros ? ? <-]. intros <- <-.
  destruct (check_decides _ _ _ C2 w2) as (ec & out & w0 & X' & _ & [(-> & O2 & _ & b2 & -> & P2)|(N & _)]); rewrite E2 in X'; injection X'; [|by intros ? ? <-]. intros <- <-.
  pose proof (initialized_k _ _ (ch_init _ _ _ C1)) as K1. pose proof (initialized_k _ _ (ch_init _ _ _ C2)) as K2.
  assert (b = true <-> b' = true) as Hb.
  { rewrite P1, P2. split; [apply (same_passes c c' p q)|apply (same_passes c' c q p)]; auto using relabelled_sym.
    - apply (ch_cfg _ _ _ C1).
    - by apply (ch_sane _ _ _ C1).
    - apply (ch_cfg _ _ _ C1).
    - by apply (ch_sane _ _ _ C2). }
  destruct b, b'; tauto || (destruct Hb; intuition congruence).
Qed.
(** Neither does the numbering decide whether the answer is obtained. *)
Lemma relabelled_check_ok cfg c c' p q o w1 w2 ec1 out1 w1' ec2 out2 w2' : relabelled c c' p q -> check_call cfg c o -> check_call cfg c' o -> no_fail w1 -> no_fail w2 ->
  check_clustering cfg (Some c) (Some o) true w1 = Ok ((ec1, out1), w1') -> check_clustering cfg (Some c') (Some o) true w2 = Ok ((ec2, out2), w2') -> ec1 = ER_OK <-> ec2 = ER_OK.
Proof.
  intros H C1 C2 F1 F2 E1 E2. pose proof (rl_n _ _ _ _ H) as Hn. destruct (check_decides _ _ _ C1 w1) as (ec & out & w & X & _ & Y). rewrite E1 in X. injection X as <- <- <-.
  destruct (check_decides _ _ _ C2 w2) as (ec & out & w0 & X & _ & Z). rewrite E2 in X. injection X as <- <- <-. rewrite Hn in Z.
  destruct Y as [(-> & O1 & _)|(N1 & _ & _ & [[O1 _]|[_ ?]])], Z as [(-> & O2 & _)|(N2 & _ & _ & [[O2 _]|[_ ?]])]; tauto.
Qed.

Lemma relabelled_stats cfg P V ds n G D c c' p q w1 w2 w1' w2' s s' : relabelled c c' p q -> stats_call cfg P V ds n G D c -> stats_call cfg P V ds n G D c' ->
  get_clustering_stats cfg P ds (Some c) true w1 = Ok ((ER_OK, Some s), w1') -> get_clustering_stats cfg P ds (Some c') true w2 = Ok ((ER_OK, Some s'), w2') ->
  st_n s = st_n s' /\ st_k s = st_k s' /\ st_assigned s = st_assigned s' /\ st_pop s = st_pop s' /\ st_minsize s = st_minsize s' /\ st_maxsize s = st_maxsize s' /\
  (st_pop s <> 0 -> st_avgsize s = st_avgsize s') /\
  (finite_dists n D -> (exists x y, mates c x y) -> st_min s = st_min s' /\ st_max s = st_max s').
Proof.
  intros H C1 C2 E1 E2. pose proof (relabelled_sym _ _ _ _ H) as H'. pose proof (rl_n _ _ _ _ H) as Hn. pose proof (rl_k _ _ _ _ H) as Hk.
  pose proof (initialized_k _ _ (sl_init _ _ _ _ _ _ _ _ C1)) as K1.
  destruct (stats_counts_all _ _ _ _ _ _ _ _ C1 _ _ _ E1) as (A1 & A2 & A3 & A4 & A5 & A6 & A7 & A8).
  destruct (stats_counts_all _ _ _ _ _ _ _ _ C2 _ _ _ E2) as (B1 & B2 & B3 & B4 & B5 & B6 & B7 & B8).
  assert (st_assigned s = st_assigned s') as Ea.
  { rewrite A3, B3, Hn. f_equal. apply filter_ext_in. intros x Hx%elem_of_seq. pose proof (same_na c c' p q H cfg (sl_cfg _ _ _ _ _ _ _ _ C1) K1 x ltac:(lia)) as Hs. unfold unlabelled in Hs. tauto. }
  assert (st_pop s = st_pop s') as Ep.
  { rewrite A4, B4. apply Nat.le_antisymm; [by apply (populated_le c c' p q)|by apply (populated_le c' c q p)]. }
  assert (forall j, j < c_k c -> p j < c_k c') as Hp by (intros j Hj; rewrite Hk; by apply (rl_perm _ _ _ _ H)).
  split; [lia|]. split; [lia|]. split; [done|]. split; [done|].
  assert (st_minsize s = st_minsize s' /\ st_maxsize s = st_maxsize s') as [Em Ex].
  { destruct (decide (st_pop s = 0)) as [Z|Z]; [destruct (A5 Z) as [-> ->]; destruct (B5 ltac:(lia)) as [-> ->]; done|].
    destruct (A6 Z) as [(i & Hi & Ni & Ei) (j & Hj & Nj & Ej)]. destruct (B6 ltac:(lia)) as [(i' & Hi' & Ni' & Ei') (j' & Hj' & Nj' & Ej')].
    destruct (cluster_back c c' p q H i' Hi') as [Q1 Q2]. destruct (cluster_back c c' p q H j' Hj') as [Q3 Q4].
    pose proof (A7 (q i') Q1 ltac:(by rewrite Q2)) as L1. rewrite Q2 in L1. pose proof (B7 (p i) (Hp i Hi)) as L2. rewrite (same_cluster c c' p q H) in L2 by done. specialize (L2 Ni).
    pose proof (A8 (q j') Q3) as L3. rewrite Q4 in L3. pose proof (B8 (p j) (Hp j Hj)) as L4. rewrite (same_cluster c c' p q H) in L4 by done. split; lia. }
  split; [done|]. split; [done|]. split.
  - intros Z. destruct (stats_sums _ _ _ _ _ _ _ _ C1 _ _ _ E1 Z) as (_ & -> & _). destruct (stats_sums _ _ _ _ _ _ _ _ C2 _ _ _ E2 ltac:(lia)) as (_ & -> & _). by rewrite Ea, Ep.
  - intros Hf Hm. assert (exists x y, mates c' x y) as Hm' by (destruct Hm as (x & y & Hm); exists x, y; by apply (same_mates c c' p q)).
    assert (forall x y, mates c x y -> d_nonneg (D x y)) as Hnn.
    { intros x y (_ & j & _ & Hx & Hy). apply (fd_nonneg _ _ Hf); rewrite <- (sl_n _ _ _ _ _ _ _ _ C1).
      - apply elem_of_list_filter in Hx as [_ Hx%elem_of_seq]. lia.
      - apply elem_of_list_filter in Hy as [_ Hy%elem_of_seq]. lia. }
    split.
    + destruct (decide (Forall (fun j => length (cluster c j) <> 1) (seq 0 (c_k c)))) as [Hs|Hs].
      * rewrite Forall_forall in Hs. assert (forall j, j < c_k c -> length (cluster c j) <> 1) as Hs1 by (intros j Hj; apply Hs, elem_of_seq; lia).
        assert (forall j, j < c_k c' -> length (cluster c' j) <> 1) as Hs2 by (intros j Hj; destruct (cluster_back c c' p q H j Hj) as [? <-]; auto).
        destruct (stats_min _ _ _ _ _ _ _ _ C1 _ _ _ E1 Hf Hs1 Hm) as [(x & y & Mx & Ex1) L1]. destruct (stats_min _ _ _ _ _ _ _ _ C2 _ _ _ E2 Hf Hs2 Hm') as [(x' & y' & Mx' & Ex2) L2].
        apply (same_mates c' c q p H') in Mx'. pose proof (same_mates c c' p q H _ _ Mx) as Mx2. rewrite Ex1, Ex2. apply d_le_antisym; auto; [rewrite <- Ex1|rewrite <- Ex2]; auto.
      * apply not_Forall_Exists in Hs; [|intros ?; apply _]. apply Exists_exists in Hs as (j & Hj%elem_of_seq & Hl). cbn in Hl.
        assert (length (cluster c j) = 1) as Hl1 by (destruct (decide (length (cluster c j) = 1)); tauto).
        rewrite (stats_single _ _ _ _ _ _ _ _ C1 _ _ _ E1 Hf j) by (done || lia). rewrite (stats_single _ _ _ _ _ _ _ _ C2 _ _ _ E2 Hf (p j)); [done|apply Hp; lia|]. by rewrite (same_cluster c c' p q H) by lia.
    + destruct (stats_max _ _ _ _ _ _ _ _ C1 _ _ _ E1 Hf Hm) as [(x & y & Mx & Ex1) L1]. destruct (stats_max _ _ _ _ _ _ _ _ C2 _ _ _ E2 Hf Hm') as [(x' & y' & Mx' & Ex2) L2].
      apply (same_mates c' c q p H') in Mx'. pose proof (same_mates c c' p q H _ _ Mx) as Mx2. rewrite Ex1, Ex2. apply d_le_antisym; auto; [rewrite <- Ex2|rewrite <- Ex1]; auto.
Qed.

(** ** Examples *)

Definition next3 (j : nat) : nat := match j with 0 => 1 | 1 => 2 | _ => 0 end.
Definition prev3 (j : nat) : nat := match j with 0 => 2 | 1 => 0 | _ => 1 end.
Definition part3_next : clustering := old_clustering 3 [1; 1; 1; 4294967295; 2; 2; 2; 2; 2; 0; 0; 0]%Z.
Definition relabelled_b (c c' : clustering) (p q : nat -> nat) : bool :=
  bool_decide (c_n c' = c_n c) && bool_decide (c_k c' = c_k c) &&
  forallb (fun j => bool_decide (p j < c_k c) && bool_decide (q j < c_k c) && bool_decide (q (p j) = j) && bool_decide (p (q j) = j)) (seq 0 (c_k c)) &&
  forallb (fun x => forallb (fun j => bool_decide (label_of c x = Some (Z.of_nat j) -> label_of c' x = Some (Z.of_nat (p j)))) (seq 0 (c_k c)) &&
    (existsb (fun j => bool_decide (label_of c x = Some (Z.of_nat j))) (seq 0 (c_k c)) || bool_decide (label_of c' x = label_of c x))) (seq 0 (c_n c)).
Lemma relabelled_by c c' p q : relabelled_b c c' p q = true -> relabelled c c' p q.
Proof.
  unfold relabelled_b. rewrite !andb_true_iff, !forallb_forall. intros (((Hn%bool_decide_eq_true_1 & Hk%bool_decide_eq_true_1) & Hp) & Hl). constructor; auto.
  - intros j Hj. specialize (Hp j ltac:(apply in_seq; lia)). rewrite !andb_true_iff, !bool_decide_eq_true in Hp. tauto.
  - intros x j Hx Hj. specialize (Hl x ltac:(apply in_seq; lia)). rewrite andb_true_iff, forallb_forall in Hl. destruct Hl as [Hl _]. specialize (Hl j ltac:(apply in_seq; lia)). by apply bool_decide_eq_true_1 in Hl.
  - intros x Hx Hno. specialize (Hl x ltac:(apply in_seq; lia)). rewrite andb_true_iff, orb_true_iff in Hl. destruct Hl as [_ [Hl|Hl]]; [|by apply bool_decide_eq_true_1 in Hl].
    apply existsb_exists in Hl as (j & Hj%in_seq & Hl%bool_decide_eq_true_1). exfalso. apply (Hno j); [lia|done].
Qed.
Lemma relabelled_example : relabelled part3 part3_next next3 prev3 /\
  check_call default_config part3 (with_size 3 default_options) /\ check_call default_config part3_next (with_size 3 default_options) /\
  says (check_line part3 (with_size 3 default_options)) true /\ says (check_line part3_next (with_size 3 default_options)) true /\
  stats_callable pts part3 /\ stats_callable pts part3_next /\ finite_dists 12 (eucl (line pts)) /\ mates part3 0 2 /\
  exists s s' w w', stats_line pts part3 (world_old (fun _ => false)) = Ok ((ER_OK, Some s), w) /\ stats_line pts part3_next (world_old (fun _ => false)) = Ok ((ER_OK, Some s'), w') /\
    st_pop s = 3 /\ st_assigned s' = 11 /\ st_minsize s' = 3%N /\ st_maxsize s' = 5.
Proof.
  split; [apply relabelled_by; by vm_compute|]. do 2 (split; [apply check_callable_by; by vm_compute|]). do 2 (split; [apply says_by; by vm_compute|]). do 2 (split; [apply stats_callable_by; by vm_compute|]).
  split; [apply finite_dists_by; by vm_compute|]. split. { split; [done|]. exists 0. split; [simpl; lia|]. split; apply elem_of_list_filter; (split; [done|apply elem_of_seq; simpl; lia]). }
  eexists _, _, _, _. split; [vm_compute; reflexivity|]. split; [vm_compute; reflexivity|]. vm_compute. done.
Qed.

(** Distances 1, 1 and 2^53: added in this order the sum is 2^53 + 2, with 2^53 first it is 2^53. *)
Definition far_pair : list Z := [0; 1; 2; 3; 0; 2 ^ 53]%Z.
Lemma relabelled_sum_refuted : exists l c c' p q s s' w w', relabelled c c' p q /\ stats_callable l c /\ stats_callable l c' /\ finite_dists (length l) (eucl (line l)) /\
  stats_line l c (world_old (fun _ => false)) = Ok ((ER_OK, Some s), w) /\ stats_line l c' (world_old (fun _ => false)) = Ok ((ER_OK, Some s'), w') /\ d_gt (st_sum s) (st_sum s') = true.
Proof.
  exists far_pair, (old_clustering 3 [0; 0; 1; 1; 2; 2]%Z), (old_clustering 3 [1; 1; 2; 2; 0; 0]%Z), next3, prev3. eexists _, _, _, _.
  split; [apply relabelled_by; by vm_compute|]. do 2 (split; [apply stats_callable_by; by vm_compute|]). split; [apply finite_dists_by; by vm_compute|].
  split; [vm_compute; reflexivity|]. split; [vm_compute; reflexivity|]. vm_compute. reflexivity.
Qed.
