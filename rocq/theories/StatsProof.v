(** scc_get_clustering_stats. *)

From stdpp Require Import prelude list sorting.
From Coq Require Import NArith ZArith.
From Verif Require Import Base World Mem Digraph DigraphRep DigraphOps DigraphDiff Float FloatFacts Spi Options Arrays NngGraph NngStage BatchProof ClusSpec Hier HierDiv HierFind HierTop Util CheckProof.

(** ** The result as a function of the clusters and distances *)

Definition dsum (xs : list double) : double := match xs with [] => d_zero | x :: r => foldl d_add x r end.
Definition dmin (xs : list double) : double := match xs with [] => d_zero | x :: r => foldl (fun lo x => if d_gt lo x then x else lo) x r end.
Definition dmax (xs : list double) : double := match xs with [] => d_zero | x :: r => foldl (fun hi x => if d_lt hi x then x else hi) x r end.

(** Distances between the members of cluster [j]. *)
Definition cluster_pairs (D : dist_fun) (c : clustering) (j : nat) : list double := (fun xy => D xy.1 xy.2) <$> pairs (rev (cluster c j)).

Definition dist_step (D : dist_fun) (c : clustering) (s : stats) (j : nat) : stats :=
  let z := length (cluster c j) in
  if decide (z < 2) then if decide (z = 1) then set_min s d_zero else s
  else add_cluster s z (z * (z - 1) / 2) (dsum (cluster_pairs D c j)) (dmin (cluster_pairs D c j)) (dmax (cluster_pairs D c j)).

(** Numbers of points and clusters. *)
Record counts_ok (cfg : config) (c : clustering) (s : stats) : Prop := {
  ct_n : st_n s = c_n c;
  ct_k : st_k s = c_k c;
  ct_assigned : st_assigned s = length (filter (fun x => label_of c x <> Some (cl_na cfg)) (seq 0 (c_n c)));
  ct_pop : st_pop s = length (filter (fun j => cluster c j <> []) (seq 0 (c_k c)));
  ct_min : (st_pop s = 0 -> st_minsize s = u64max) /\ (st_pop s <> 0 -> exists j, j < c_k c /\ cluster c j <> [] /\ st_minsize s = N.of_nat (length (cluster c j))) /\
    forall j, j < c_k c -> cluster c j <> [] -> (st_minsize s <= N.of_nat (length (cluster c j)))%N;
  ct_max : (st_pop s = 0 -> st_maxsize s = 0) /\ (st_pop s <> 0 -> exists j, j < c_k c /\ cluster c j <> [] /\ st_maxsize s = length (cluster c j)) /\
    forall j, j < c_k c -> length (cluster c j) <= st_maxsize s
}.

Definition same_counts (s s' : stats) : Prop :=
  st_n s' = st_n s /\ st_assigned s' = st_assigned s /\ st_k s' = st_k s /\ st_pop s' = st_pop s /\ st_minsize s' = st_minsize s /\ st_maxsize s' = st_maxsize s.

Lemma counts_same cfg c s s' : counts_ok cfg c s -> same_counts s s' -> counts_ok cfg c s'.
Proof. intros [H1 H2 H3 H4 H5 H6] (E1 & E2 & E3 & E4 & E5 & E6). constructor; rewrite ?E1, ?E2, ?E3, ?E4, ?E5, ?E6; auto. Qed.

Lemma same_counts_trans s1 s2 s3 : same_counts s1 s2 -> same_counts s2 s3 -> same_counts s1 s3.
Proof. unfold same_counts. intuition congruence. Qed.

Lemma dist_step_counts D c s j : same_counts s (dist_step D c s j).
Proof. unfold dist_step. repeat case_decide; done. Qed.

Lemma dist_steps_counts D c l s : same_counts s (foldl (dist_step D c) s l).
Proof. revert s. induction l as [|j l IH]; intros s; [done|]. simpl. eapply same_counts_trans; [apply dist_step_counts|apply IH]. Qed.

(** Initial values of the distances. *)
Definition start_dists (s : stats) : Prop :=
  st_avgsize s = d_zero /\ st_sum s = d_zero /\ st_min s = d_max /\ st_max s = d_zero /\ st_avgmin s = d_zero /\ st_avgmax s = d_zero /\ st_avgw s = d_zero /\ st_avgu s = d_zero.

Lemma pairs_length l : length (pairs l) = length l * (length l - 1) / 2.
Proof.
  assert (2 * length (pairs l) = length l * (length l - 1)) as H.
  { induction l as [|x l IH]; [done|]. cbn [pairs length]. rewrite app_length, fmap_length. nia. }
  rewrite <- H, Nat.mul_comm, Nat.div_mul; lia.
Qed.

Section Stats.
Context (cfg : config) (P : provider) (V : pview P) (ds : p_ds P) (n : nat) (G : geometry) (D : dist_fun) (c : clustering).
Hypothesis (Hcfg : config_ok cfg) (HP : provider_ok P V ds n G D) (Hn : c_n c = n) (Hkm : (N.of_nat (c_k c) <= cl_max cfg)%N) (Hk : c_k c <> 0) (Hw : all_written c).
Hypothesis (Hlab : forall x, x < c_n c -> unlabelled cfg c x \/ in_cluster c x) (Hsq : (N.of_nat (n * (n - 1)) <= u64max)%N) (Hnm : (N.of_nat n <= u64max)%N).
Notation k := (c_k c).
Notation solid w := (no_fail w /\ provider_reliable P V ds n).
Notation sz := (sizes c).

Lemma sizes_get b j : j < k -> aget (farr b sz) j = Ok (length (cluster c j)).
Proof. intros Hj. apply aget_farr. unfold sizes. by rewrite list_lookup_fmap, lookup_seq_lt. Qed.

Lemma cluster_le j : length (cluster c j) <= n.
Proof. rewrite <- Hn. unfold cluster. etransitivity; [apply filter_length|]. by rewrite seq_length. Qed.

Lemma assigned_total : offs (cells c) n k = length (filter (fun x => label_of c x <> Some (cl_na cfg)) (seq 0 n)).
Proof.
  unfold offs. apply Permutation_length, NoDup_Permutation; [apply concat_cls_nodup|apply NoDup_filter, NoDup_seq|]. intros x. rewrite elem_concat_cls, elem_of_list_filter, elem_of_seq. split.
  - intros (i & Hi & Hx). apply elem_cls in Hx as [Hx Hl]. split; [|lia]. unfold label_of. rewrite Hl. intros [= E]. by apply (na_not_label cfg Hcfg i k).
  - intros [Hx Hl]. destruct (Hlab x) as [Hu|(i & Hi & Hin)]; [lia|done|]. exists i. split; [done|]. unfold cluster in Hin. rewrite Hn in Hin. exact Hin.
Qed.

Definition stats0 : stats := Stats n 0 k 0 u64max 0 d_zero d_zero d_max d_zero d_zero d_zero d_zero d_zero.

Lemma size_stats_sat B b : Rsat B (size_stats k (farr b sz) stats0) (fun s => counts_ok cfg c s /\ start_dists s /\ st_assigned s = offs (cells c) n k).
Proof.
  unfold size_stats. apply (forR_sat0 B (fun i s => st_n s = n /\ st_k s = k /\ start_dists s /\ st_assigned s = offs (cells c) n i /\
    st_pop s = length (filter (fun j => cluster c j <> []) (seq 0 i)) /\
    ((st_pop s = 0 -> st_minsize s = u64max) /\ (st_pop s <> 0 -> exists j, j < i /\ cluster c j <> [] /\ st_minsize s = N.of_nat (length (cluster c j))) /\
      forall j, j < i -> cluster c j <> [] -> (st_minsize s <= N.of_nat (length (cluster c j)))%N) /\
    ((st_pop s = 0 -> st_maxsize s = 0) /\ (st_pop s <> 0 -> exists j, j < i /\ cluster c j <> [] /\ st_maxsize s = length (cluster c j)) /\
      forall j, j < i -> length (cluster c j) <= st_maxsize s))).
  - splits; try done; intros; lia.
  - intros i s Hi (H1 & H2 & H3 & H4 & H5 & (H6a & H6b & H6c) & (H7a & H7b & H7c)). rewrite sizes_get by done. cbn [Rbind].
    assert (offs (cells c) n (S i) = offs (cells c) n i + length (cluster c i)) as Ho by (rewrite offs_S; unfold cluster; rewrite Hn; done).
    assert (filter (fun j => cluster c j <> []) (seq 0 (S i)) = filter (fun j => cluster c j <> []) (seq 0 i) ++ (if decide (cluster c i <> []) then [i] else [])) as Hf.
    { rewrite seq_S, filter_app, filter_cons. simpl. case_decide; done. }
    destruct (decide (length (cluster c i) = 0)) as [Hz|Hz]; cbn [Rsat].
    + assert (cluster c i = []) as Hnil by (by apply nil_length_inv). rewrite Hf, decide_False, app_nil_r by (rewrite Hnil; auto). splits; auto; [lia| | | |].
      * intros Hp. destruct (H6b Hp) as (j & ? & ?). exists j. split; [lia|done].
      * intros j Hj Hne. apply H6c; [|done]. destruct (decide (j = i)) as [->|]; [done|lia].
      * intros Hp. destruct (H7b Hp) as (j & ? & ?). exists j. split; [lia|done].
      * intros j Hj. destruct (decide (j = i)) as [->|]; [lia|apply H7c; lia].
    + assert (cluster c i <> []) as Hne by (intros E; rewrite E in Hz; done). cbn [st_n st_k st_assigned st_pop st_minsize st_maxsize]. rewrite Hf, (decide_True (P := cluster c i <> [])), app_length by done. simpl length.
      pose proof (cluster_le i) as Hle. splits; auto; try lia.
      * intros _. destruct (N.ltb_spec (N.of_nat (length (cluster c i))) (st_minsize s)) as [Hlt|Hge]; [exists i; splits; auto|].
        destruct (decide (st_pop s = 0)) as [Hp|Hp].
        -- rewrite H6a in * by done. exists i. splits; auto. lia.
        -- destruct (H6b Hp) as (j & ? & ? & ?). exists j. splits; auto. 
      * intros j Hj Hne'. destruct (N.ltb_spec (N.of_nat (length (cluster c i))) (st_minsize s)) as [Hlt|Hge].
        -- destruct (decide (j = i)) as [->|]; [lia|]. specialize (H6c j ltac:(lia) Hne'). lia.
        -- destruct (decide (j = i)) as [->|]; [lia|]. apply H6c; [lia|done].
      * intros _. destruct (decide (st_maxsize s < length (cluster c i))) as [Hlt|Hlt]; [exists i; splits; auto|]. destruct (decide (st_pop s = 0)) as [Hp|Hp].
        -- rewrite H7a in Hlt by done. lia.
        -- destruct (H7b Hp) as (j & ? & ? & ?). exists j. splits; auto.
      * intros j Hj. destruct (decide (st_maxsize s < length (cluster c i))); (destruct (decide (j = i)) as [->|]; [lia|]; specialize (H7c j ltac:(lia)); lia).
  - intros s (H1 & H2 & H3 & H4 & H5 & H6 & H7). split; [|done]. constructor; auto; [congruence|]. rewrite H4, Hn. apply assigned_total.
Qed.

(** ** The members *)

Lemma member_ends_sat B b b' : Rsat B (member_ends k (farr b sz) (Some (Arr b' (fresh nat k)))) (fun r => r = farr b' ((fun j => offs (cells c) n (S j)) <$> seq 0 k)).
Proof.
  unfold member_ends. rewrite sizes_get by lia. cbn [Rbind]. rewrite aset_cells by (unfold fresh; rewrite replicate_length; lia). cbn [Rbind].
  assert (forall j, offs (cells c) n (S j) = offs (cells c) n j + length (cluster c j)) as Ho by (intros j; rewrite offs_S; unfold cluster; by rewrite Hn).
  eapply Rsat_mono; [apply (forR_sat B (fun i r => exists a, r = Some (Arr b' a) /\ length a = k /\ forall j, j < i -> a !! j = Some (Some (offs (cells c) n (S j)))))|].
  - eexists. splits; [done|unfold fresh; by rewrite insert_length, replicate_length|]. intros j Hj. assert (j = 0) as -> by lia. rewrite list_lookup_insert by (unfold fresh; rewrite replicate_length; lia).
    by rewrite Ho.
  - intros i r Hi (a & -> & Hl & Ha). rewrite (aget_cells _ _ _ _ (Ha (i - 1) ltac:(lia))). cbn [Rbind]. rewrite sizes_get by lia. cbn [Rbind]. rewrite aset_cells by lia. cbn [Rsat].
    eexists. splits; [done|by rewrite insert_length|]. intros j Hj. destruct (decide (j = i)) as [->|].
    + rewrite list_lookup_insert by lia. rewrite (Ho i). replace (S (i - 1)) with i by lia. done.
    + rewrite list_lookup_insert_ne by done. apply Ha. lia.
  - intros r (a & -> & Hl & Ha). replace (1 + (k - 1)) with k in Ha by lia. do 2 f_equal. apply list_eq. intros j. rewrite !list_lookup_fmap. destruct (decide (j < k)) as [Hj|Hj].
    + rewrite Ha by done. by rewrite lookup_seq_lt.
    + rewrite (lookup_ge_None_2 (seq 0 k)) by (rewrite seq_length; lia). rewrite lookup_ge_None_2 by lia. done.
Qed.

Lemma fill_members_sat B b' bs : Rsat B (fill_members cfg c (farr b' ((fun j => offs (cells c) n (S j)) <$> seq 0 k)) (Some (Arr bs (fresh nat (offs (cells c) n k)))))
  (fun '(ptr, st) => exists pc sc, ptr = Some (Arr b' pc) /\ st = Some (Arr bs sc) /\ length sc = offs (cells c) n k /\
     forall j, j < k -> pc !! j = Some (Some (offs (cells c) n j)) /\ stored sc (offs (cells c) n j) (rev (cluster c j))).
Proof.
  assert (forall m j, m <= n -> length (cls (cells c) m j) <= length (cls (cells c) n j)) as Hle by (intros; by apply cls_le).
  set (L := cells c) in *. unfold fill_members. rewrite Hn.
  apply (forR_sat0 B (fun i '(ptr, st) => exists pc sc, ptr = Some (Arr b' pc) /\ st = Some (Arr bs sc) /\ length pc = k /\ length sc = offs L n k /\
     forall j, j < k -> pc !! j = Some (Some (offs L n (S j) - length (cls L i j))) /\ stored sc (offs L n (S j) - length (cls L i j)) (rev (cls L i j)))).
  - eexists _, _. splits; [done|done|by rewrite !fmap_length, seq_length|apply replicate_length|]. intros j Hj. split; [|apply stored_nil]. rewrite !list_lookup_fmap, lookup_seq_lt by done. simpl. do 3 f_equal. lia.
  - intros i [ptr st] Hi (pc & sc & -> & -> & Hlp & Hls & Hj). destruct (valid_get cfg c Hcfg Hkm Hk Hw Hlab i) as (z & -> & [[-> Hnone]|(j & Hjm & -> & Hne & HLi)]); [lia| |]; cbn [Rbind].
    + rewrite decide_True by done. cbn [Rsat]. exists pc, sc. splits; auto. intros j Hjm. rewrite cls_S, decide_False by (by apply Hnone). rewrite app_nil_r. by apply Hj.
    + rewrite decide_False by done. unfold label_idx. rewrite decide_True by lia. cbn [Rbind]. rewrite Nat2Z.id. destruct (Hj j Hjm) as [Hcj Hsj]. rewrite (aget_cells _ _ _ _ Hcj). cbn [Rbind].
      pose proof (Hle (S i) j ltac:(lia)) as Hlt. rewrite cls_S, decide_True, app_length in Hlt by (fold L in HLi; by rewrite HLi). simpl in Hlt.
      pose proof (offs_S L n j) as Ho. pose proof (offs_mono L n (S j) k ltac:(lia)) as Hon. rewrite decide_False by lia. rewrite aset_cells by lia. cbn [Rbind]. rewrite aset_cells by lia. cbn [Rbind Rsat].
      eexists _, _. splits; [done|done|by rewrite insert_length|by rewrite insert_length|]. intros j' Hjm'. destruct (Hj j' Hjm') as [Hcj' Hsj']. rewrite cls_S, app_length, rev_app_distr.
      destruct (decide (j = j')) as [<-|Hne'].
      * rewrite list_lookup_insert by lia. rewrite decide_True by (fold L in HLi; by rewrite HLi). simpl. split; [do 2 f_equal; lia|].
        replace (offs L n (S j) - (length (cls L i j) + 1)) with (offs L n (S j) - length (cls L i j) - 1) by lia. apply stored_cons; [|lia].
        by replace (S (offs L n (S j) - length (cls L i j) - 1)) with (offs L n (S j) - length (cls L i j)) by lia.
      * rewrite list_lookup_insert_ne by done. rewrite decide_False by (fold L in HLi; rewrite HLi; simpl; intros [= E]; lia). simpl. rewrite Nat.add_0_r. split; [done|].
        eapply stored_same; [exact Hsj'|]. intros p Hp. rewrite rev_length in Hp. apply list_lookup_insert_ne. intros <-.
        pose proof (Hle i j' ltac:(lia)). pose proof (offs_S L n j') as Ho'.
        destruct (decide (j < j')) as [Hlt'|Hge]; [pose proof (offs_mono L n (S j) j' ltac:(lia))|pose proof (offs_mono L n (S j') j ltac:(lia))]; lia.
  - intros [ptr st] (pc & sc & -> & -> & Hlp & Hls & Hj). exists pc, sc. splits; auto. intros j Hjm. destruct (Hj j Hjm) as [H1 H2]. rewrite offs_S in H1, H2.
    replace (offs L n j + length (cls L n j) - length (cls L n j)) with (offs L n j) in * by lia. split; [done|]. unfold cluster, label_of. rewrite Hn. exact H2.
Qed.

(** ** The distances *)

Lemma cluster_dists_sat B b (a : list (option double)) xs : filled a xs -> xs <> [] -> Rsat B (cluster_dists (length xs) (Some (Arr b a))) (fun '(s, lo, hi) => s = dsum xs /\ lo = dmin xs /\ hi = dmax xs).
Proof.
  intros Hf Hne. destruct xs as [|x r]; [done|]. unfold cluster_dists. rewrite (aget_cells _ _ _ x) by (by eapply filled_lookup). cbn [Rbind].
  eapply Rsat_mono; [apply (forR_sat B (fun i '(s, lo, hi) => s = dsum (take i (x :: r)) /\ lo = dmin (take i (x :: r)) /\ hi = dmax (take i (x :: r))))|].
  - done.
  - intros i [[s lo] hi] Hi (-> & -> & ->). destruct (lookup_lt_is_Some_2 (x :: r) i) as [y Hy]; [lia|]. rewrite (aget_cells _ _ _ y) by (by eapply filled_lookup). cbn [Rbind Rsat].
    rewrite (take_S_r _ _ y) by done. destruct i as [|i]; [lia|]. cbn [take app dsum dmin dmax]. by rewrite !foldl_app.
  - intros [[s lo] hi]. cbn [length]. replace (1 + (S (length r) - 1)) with (length (x :: r)) by (simpl; lia). by rewrite firstn_all.
Qed.

Lemma Msat_dist_matrix b (a : list (option double)) len q Q w : argcells q len Q -> Forall (fun x => x < n) Q -> 1 < len -> len * (len - 1) / 2 <= length a ->
  Msat none (dist_matrix P ds len q (Some (Arr b a))) w (fun r w' => wle w w' /\ own w' [] w /\ w_err w' = w_err w /\
    match r with None => ~ solid w | Some d => exists a', d = Some (Arr b a') /\ length a' = length a /\ filled a' ((fun xy => D xy.1 xy.2) <$> pairs Q) end).
Proof.
  intros Harg Hlt H1 Hlen. unfold dist_matrix. apply Msat_bind, Msat_lift. eapply Rsat_mono; [by apply read_idx_arg|]. intros r (Hr1 & Hr2 & _). pose proof (argcells_length _ _ _ Harg) as HlQ.
  assert (query_list n r) as Hq. { split; [rewrite Hr2; intros ->; simpl in *; lia|]. rewrite Hr2, Hr1. done. }
  apply Msat_bind. pose proof (pk_matrix _ _ _ _ _ _ HP w r Hq ltac:(lia)) as Hm. pose proof (fun H => rel_matrix P V ds n H w r Hq ltac:(lia)) as Hrel.
  unfold Msat in *. destruct (p_matrix P ds r w) as [[[d|] w']|u]; [| |by destruct Hm]; cbn [Rsat] in *.
  - destruct Hm as ((L & O & E) & ->). rewrite Hr2. match goal with |- Rsat none (Mbind ?m ?f w') ?Q => change (Msat none (Mbind m f) w' (fun a w' => Q (a, w'))) end.
    apply Msat_bind, Msat_lift. eapply Rsat_mono; [apply write_out_sat; [done|rewrite fmap_length, pairs_length, HlQ; done]|]. intros p (b1 & c1 & c' & [= <- <-] & -> & Hf & Hl). apply Msat_ret. splits; auto. exists c'. auto.
  - destruct Hm as ((L & O & E) & _). cbn. splits; auto. intros [F Hr]. by specialize (Hrel Hr F).
Qed.

Lemma Msat_dist_stats b bp pc bs sc bd a s w : 
  (forall j, j < k -> pc !! j = Some (Some (offs (cells c) n j)) /\ stored sc (offs (cells c) n j) (rev (cluster c j))) -> length sc = offs (cells c) n k ->
  (forall j, j < k -> length (cluster c j) * (length (cluster c j) - 1) / 2 <= length a) ->
  Msat none (dist_stats P ds k (farr b sz) (Some (Arr bp pc)) (Some (Arr bs sc)) (Some (Arr bd a)) s) w (fun r w' => wle w w' /\ own w' [] w /\ w_err w' = w_err w /\
    match r with
    | inl (s', d') => s' = foldl (dist_step D c) s (seq 0 k)
    | inr _ => ~ solid w
    end).
Proof.
  intros Hj Hls Hla. unfold dist_stats.
  apply (loopM_sat none (fun i '(s', d) w' => (exists a', d = Some (Arr bd a') /\ length a' = length a) /\ s' = foldl (dist_step D c) s (seq 0 i) /\ wle w w' /\ own w' [] w /\ w_err w' = w_err w)
    (fun _ w' => wle w w' /\ own w' [] w /\ w_err w' = w_err w /\ ~ solid w)).
  - splits; auto; [eauto|by intros x].
  - intros j [s' d] w1 Hjk ((a' & -> & Hla') & -> & L1 & O1 & E1). apply Msat_bind, Msat_lift. rewrite sizes_get by done. cbn [Rsat]. rewrite seq_S, foldl_app. cbn [foldl]. rewrite Nat.add_0_l. set (s1 := foldl _ s _).
    destruct (decide (length (cluster c j) < 2)) as [Hz|Hz].
    { apply Msat_ret. splits; auto; [eauto|]. unfold dist_step. by rewrite (decide_True (P := length (cluster c j) < 2)) by done. }
    destruct (Hj j Hjk) as [Hp Hst]. apply Msat_bind, Msat_lift. rewrite (aget_cells _ _ _ _ Hp). cbn [Rsat].
    assert (offs (cells c) n j + length (cluster c j) <= length sc) as Hin.
    { rewrite Hls. pose proof (offs_mono (cells c) n (S j) k ltac:(lia)) as Ho. rewrite offs_S in Ho. unfold cluster. rewrite Hn. exact Ho. }
    apply Msat_bind. eapply Msat_mono; [apply (Msat_dist_matrix bd a' (length (cluster c j)) _ (rev (cluster c j)))|].
    + split; [|by rewrite rev_length]. cbn [a_cells]. apply stored_filled; [done|]. by rewrite rev_length.
    + apply Forall_forall. intros x Hx. apply elem_of_list_In, in_rev, elem_of_list_In in Hx. apply elem_of_list_filter in Hx as [_ Hx]. apply elem_of_seq in Hx. lia.
    + lia.
    + rewrite Hla'. by apply Hla.
    + intros [d|] w2 (L2 & O2 & E2 & H2); [|apply Msat_ret; splits; [wl|blk|congruence|]; intros HS; apply H2; by eapply solid_wle].
      destruct H2 as (a2 & -> & Hl2 & Hf2). apply Msat_bind, Msat_lift. fold (cluster_pairs D c j) in Hf2.
      assert (length (cluster_pairs D c j) = length (cluster c j) * (length (cluster c j) - 1) / 2) as Hlen by (unfold cluster_pairs; rewrite fmap_length, pairs_length, rev_length; done).
      rewrite <- Hlen. eapply Rsat_mono; [apply cluster_dists_sat; [done|]|].
      * intros E. rewrite E in Hlen. cbn [length] in Hlen. assert (1 <= length (cluster c j) * (length (cluster c j) - 1) / 2) by (apply Nat.div_le_lower_bound; nia). lia.
      * intros [[x lo] hi] (-> & -> & ->). apply Msat_ret. splits; [exists a2; split; [done|congruence]| |wl|blk|congruence]. unfold dist_step.
        rewrite (decide_False (P := length (cluster c j) < 2)) by done. by rewrite Hlen.
  - intros [s' d] w1 (_ & -> & ? & ? & ?). splits; auto.
  - intros [] w1 (? & ? & ? & ?). splits; auto.
Qed.

Lemma Msat_stats w : is_initialized_clustering cfg (Some c) = true ->
  Msat none (get_clustering_stats cfg P ds (Some c) true) w (fun '(ec, out) w' => wle w w' /\ own w' [] w /\
    ((ec = ER_OK /\ w_err w' = w_err w /\ exists s, counts_ok cfg c s /\ start_dists s /\ out = Some (if decide (st_pop s = 0) then s else finish_stats (foldl (dist_step D c) s (seq 0 k)))) \/
     (out = Some null_stats /\ e_code (w_err w') = ec /\ ((ec = ER_NO_MEMORY /\ ~ no_fail w) \/ (ec = ER_DIST_SEARCH_ERROR /\ ~ solid w))))).
Proof.
  intros Hi. unfold get_clustering_stats. cbn [negb]. rewrite Hi. cbn [negb]. rewrite decide_False by done. rewrite (pk_check _ _ _ _ _ _ HP). cbn [negb].
  rewrite decide_False by (rewrite (pk_num _ _ _ _ _ _ HP); auto).
  apply Msat_bind. eapply Msat_mono; [apply Msat_calloc_any|]. intros a w1 (L1 & O1 & E1 & F1 & S1). destruct a as [a|].
  2:{ apply Msat_bind, Msat_make_error__. intros w3 L3 O3 E3 _. apply Msat_ret. splits; [wl|blk|]. right. splits; [done|by rewrite E3|]. left. split; [done|]. intros HF. by apply F1. }
  destruct (S1 _ eq_refl) as [b ->]. rewrite replicate_farr. clear S1 F1.
  apply Msat_bind, Msat_lift. eapply Rsat_mono; [by apply count_sizes_sat|]. intros r ->. rewrite Hn. fold stats0. apply Msat_bind, Msat_lift. eapply Rsat_mono; [by apply size_stats_sat|].
  intros s (Hc & Hd & Has). destruct (decide (st_pop s = 0)) as [Hp|Hp].
  { apply Msat_bind, Msat_free_arr; [blk|]. intros w3 L3 C3 E3 _. apply Msat_ret. splits; [wl|blk|]. left. splits; [done|congruence|]. exists s. splits; auto. by rewrite decide_True. }
  apply Msat_bind. eapply Msat_mono; [apply Msat_malloc_any|]. intros st w2 (L2 & O2 & E2 & F2 & S2).
  apply Msat_bind. eapply Msat_mono; [apply Msat_malloc_any|]. intros ptr w3 (L3 & O3 & E3 & F3 & S3).
  apply Msat_bind. eapply Msat_mono; [apply Msat_malloc_any|]. intros d w4 (L4 & O4 & E4 & F4 & S4).
  assert (forall w5 (Qf : unit -> world -> Prop), wle w4 w5 -> own w5 [] w4 -> (forall w6, wle w5 w6 -> own w6 [] w -> w_err w6 = w_err w5 -> Qf tt w6) ->
    Msat none (let* _ := free_arr (farr b sz) in let* _ := free_arr st in let* _ := free_arr ptr in free_arr d) w5 Qf) as Hclean.
  { intros w5 Qf L5 O5 HQ. apply Msat_bind, Msat_free_arr; [blk|]. intros w6 L6 C6 E6 _. apply Msat_bind, Msat_free_arr; [blk|]. intros w7 L7 C7 E7 _.
    apply Msat_bind, Msat_free_arr; [blk|]. intros w8 L8 C8 E8 _. apply Msat_free_arr; [blk|]. intros w9 L9 C9 E9 _. apply HQ; [wl|blk|congruence]. }
  match goal with |- Msat _ _ _ ?Q => set (Post := Q) end.
  assert (st = None \/ ptr = None \/ d = None -> Msat none (let* _ := (let* _ := free_arr (farr b sz) in let* _ := free_arr st in let* _ := free_arr ptr in free_arr d) in
    let* ec := make_error ER_NO_MEMORY src_util 248 in Mret (ec, Some null_stats)) w4 Post) as Hfail.
  { intros Hnone. apply Msat_bind, Hclean; [wl|by intros x|]. intros w6 L6 O6 E6. apply Msat_bind, Msat_make_error__. intros w7 L7 O7 E7 _. apply Msat_ret. subst Post. cbn beta iota. splits; [wl|blk|]. right. splits; [done|by rewrite E7|].
    left. split; [done|]. intros HF. destruct Hnone as [Hx|[Hx|Hx]]; [apply F2|apply F3|apply F4]; auto; (eapply no_fail_wle; [exact HF|wl]). }
  destruct st as [st|]; [|by apply Hfail; left]. destruct ptr as [ptr|]; [|by apply Hfail; right; left]. destruct d as [d|]; [|by apply Hfail; right; right].
  destruct (S2 _ eq_refl) as [bs ->]. destruct (S3 _ eq_refl) as [bp ->]. destruct (S4 _ eq_refl) as [bd ->]. clear Hfail.
  destruct (ct_max _ _ _ Hc) as (_ & Hmax1 & Hmax2).
  assert (st_maxsize s <= n) as Hmn. { destruct (Hmax1 Hp) as (j & _ & _ & ->). apply cluster_le. }
  rewrite wrapN_small in * by nia. rewrite Has in *.
  apply Msat_bind, Msat_lift. eapply Rsat_mono; [by apply member_ends_sat|]. intros r ->. apply Msat_bind, Msat_lift. eapply Rsat_mono; [by apply fill_members_sat|].
  intros [ptr st] (pc & sc & -> & -> & Hlsc & Hj). apply Msat_bind. eapply Msat_mono; [apply Msat_dist_stats; [done|done|]|].
  { intros j Hjk. unfold fresh. rewrite replicate_length. apply Nat.div_le_mono; [lia|]. specialize (Hmax2 j Hjk). nia. }
  intros [[s' d']|[]] w5 (L5 & O5 & E5 & H5).
  - subst s'. apply Msat_bind, Hclean; [wl|blk|]. intros w6 L6 O6 E6. apply Msat_ret. subst Post. cbn beta iota. splits; [wl|done|]. left. splits; [done|congruence|]. exists s. splits; auto. by rewrite decide_False.
  - apply Msat_bind, Hclean; [wl|blk|]. intros w6 L6 O6 E6. apply Msat_bind, Msat_make_error__. intros w7 L7 O7 E7 _. apply Msat_ret. subst Post. cbn beta iota. splits; [wl|blk|]. right. splits; [done|by rewrite E7|].
    right. split; [done|]. intros HS. apply H5. eapply solid_wle; [|exact HS]. wl.
Qed.
End Stats.
