(** Hierarchical clustering: the initial stack and the call as a whole. *)

From stdpp Require Import prelude list sorting.
From Coq Require Import NArith ZArith.
From Verif Require Import Base World Mem Float FloatFacts Spi Options Digraph DigraphRep DigraphOps DigraphDiff Arrays NngGraph NngStage NngEst Batch BatchProof ClusSpec Hier HierDiv HierFind HierSpec HierRun.

(** ** Clusters given by labels *)

Definition cls (L : list (option Z)) (m j : nat) : list nat := filter (fun x => default None (L !! x) = Some (Z.of_nat j)) (seq 0 m).
Definition offs (L : list (option Z)) (m j : nat) : nat := length (concat (cls L m <$> seq 0 j)).

Lemma cls_0 L j : cls L 0 j = [].
Proof. done. Qed.

Lemma cls_S L m j : cls L (S m) j = cls L m j ++ (if decide (default None (L !! m) = Some (Z.of_nat j)) then [m] else []).
Proof. unfold cls. rewrite seq_S, filter_app, filter_cons. simpl. case_decide; done. Qed.

Lemma elem_cls L m j x : x ∈ cls L m j <-> x < m /\ default None (L !! x) = Some (Z.of_nat j).
Proof. unfold cls. rewrite elem_of_list_filter, elem_of_seq. split; [intros [? ?]|intros [? ?]]; split; auto; lia. Qed.

Lemma cls_nodup L m j : NoDup (cls L m j).
Proof. apply NoDup_filter, NoDup_seq. Qed.

Lemma cls_le L m i j : i <= m -> length (cls L i j) <= length (cls L m j).
Proof. induction 1 as [|m _ IH]; [done|]. rewrite cls_S, app_length. lia. Qed.

Lemma offs_S L m j : offs L m (S j) = offs L m j + length (cls L m j).
Proof. unfold offs. rewrite seq_S, fmap_app, concat_app, app_length. simpl. by rewrite app_nil_r. Qed.

Lemma offs_mono L m i j : i <= j -> offs L m i <= offs L m j.
Proof. induction 1 as [|j _ IH]; [done|]. rewrite offs_S. lia. Qed.

Lemma elem_concat_cls L m j x : x ∈ concat (cls L m <$> seq 0 j) <-> exists i, i < j /\ x ∈ cls L m i.
Proof.
  rewrite elem_of_concat. split.
  - intros (l & Hx & Hl). apply elem_of_list_fmap in Hl as (i & -> & Hi). apply elem_of_seq in Hi. exists i. split; [lia|done].
  - intros (i & Hi & Hx). exists (cls L m i). split; [done|]. apply elem_of_list_fmap. exists i. split; [done|]. apply elem_of_seq. lia.
Qed.

Lemma concat_cls_nodup L m j : NoDup (concat (cls L m <$> seq 0 j)).
Proof.
  induction j as [|j IH]; [constructor|]. rewrite seq_S, fmap_app, concat_app. simpl. rewrite app_nil_r. apply NoDup_app. splits; [done| |apply cls_nodup].
  intros x Hx Hx'. apply elem_concat_cls in Hx as (i & Hi & Hx). apply elem_cls in Hx as [_ Hx]. apply elem_cls in Hx' as [_ Hx']. rewrite Hx in Hx'. injection Hx'. lia.
Qed.

Lemma offs_le L m j : offs L m j <= m.
Proof.
  unfold offs. rewrite <- (seq_length m 0) at 2. apply submseteq_length, NoDup_submseteq; [apply concat_cls_nodup|].
  intros x Hx. apply elem_concat_cls in Hx as (i & _ & Hx). apply elem_cls in Hx as [Hx _]. apply elem_of_seq. lia.
Qed.

(** The initial stack, top first. *)
Fixpoint its_of (L : list (option Z)) (m j : nat) : list (hitem * list nat) :=
  match j with
  | 0 => []
  | S j => (HI (length (cls L m j)) 0 (offs L m j), rev (cls L m j)) :: its_of L m j
  end.

Lemma its_of_length L m j : length (its_of L m j) = j.
Proof. induction j; simpl; congruence. Qed.

Lemma its_of_items L m j : rev (its_of L m j).*1 = (fun i => HI (length (cls L m i)) 0 (offs L m i)) <$> seq 0 j.
Proof. induction j as [|j IH]; [done|]. rewrite seq_S, fmap_app. csimpl. by rewrite IH. Qed.

Lemma its_of_second L m j : (its_of L m j).*2 = (fun i => rev (cls L m i)) <$> rev (seq 0 j).
Proof. induction j as [|j IH]; [done|]. rewrite seq_S, rev_app_distr. csimpl. by rewrite IH. Qed.

Lemma its_of_total L m j : total (its_of L m j) = offs L m j.
Proof. induction j as [|j IH]; [done|]. cbn [its_of]. rewrite total_cons, IH, offs_S, rev_length. lia. Qed.

Lemma its_of_members L m j : concat (its_of L m j).*2 ≡ₚ concat (cls L m <$> seq 0 j).
Proof. induction j as [|j IH]; [done|]. rewrite seq_S, fmap_app, concat_app. csimpl. rewrite IH, app_nil_r, <- Permutation_rev. apply Permutation_app_comm. Qed.

Lemma its_of_elem L m j it ms : (it, ms) ∈ its_of L m j -> exists i, i < j /\ it = HI (length (cls L m i)) 0 (offs L m i) /\ ms = rev (cls L m i).
Proof.
  induction j as [|j IH]; [intros H; by apply elem_of_nil in H|]. cbn [its_of]. intros [[= -> ->]|H]%elem_of_cons; [exists j; auto|].
  destruct (IH H) as (i & ? & ?). exists i. split; [lia|done].
Qed.

Lemma its_of_lay L m j hi : offs L m j <= hi -> lay hi (its_of L m j).
Proof.
  revert hi. induction j as [|j IH]; intros hi H; [done|]. cbn [its_of lay hi_mem]. rewrite rev_length. rewrite offs_S in H. split; [lia|]. by apply IH.
Qed.

Lemma its_of_bigs k L m j : NoDup (bigs k (its_of L m j)).
Proof.
  assert (forall x j, x ∈ bigs k (its_of L m j) -> exists i, i < j /\ x ∈ cls L m i) as Hin.
  { intros x j' Hx. unfold bigs in Hx. apply elem_of_concat in Hx as (l & Hx & Hl). apply elem_of_list_filter in Hl as [_ Hl]. apply elem_of_list_fmap in Hl as ([it ms] & -> & Hl).
    apply its_of_elem in Hl as (i & Hi & _ & ->). exists i. split; [done|]. simpl in Hx. by rewrite <- Permutation_rev in Hx. }
  induction j as [|j IH]; [constructor|]. cbn [its_of]. rewrite bigs_cons. case_decide; [|done]. apply NoDup_app. splits; auto.
  - rewrite <- Permutation_rev. apply cls_nodup.
  - intros x Hx Hx'. rewrite <- Permutation_rev in Hx. destruct (Hin _ _ Hx') as (i & Hi & Hxi). apply elem_cls in Hx as [_ Hx]. apply elem_cls in Hxi as [_ Hxi]. rewrite Hx in Hxi. injection Hxi. lia.
Qed.

Section Top.
Context (cfg : config) (P : provider) (V : pview P) (ds : p_ds P) (n : nat) (G : geometry) (D : dist_fun).
Hypothesis (Hcfg : config_ok cfg) (HP : provider_ok P V ds n G D) (HG : dist_sane G D n).
Context (qs : world -> list (nat * double) -> list (nat * double)) (Hqs : forall w l, qs w l ≡ₚ l) (log2cap : nat -> nat -> nat).
Notation solid w := (no_fail w /\ provider_reliable P V ds n).

Lemma Msat_empty_stack w :
  Msat none (empty_cl_stack log2cap n) w (fun '(ec, r) w' => wle w w' /\
    match r with
    | Some (s, st) => w_err w' = w_err w /\ exists bc cells bs c, own w' [bc; bs] w /\ s = HS (length cells) 1 (Some (Arr bc cells)) /\ 1 <= length cells /\
        stored cells 0 [HI n 0 0] /\ st = Some (Arr bs c) /\ length c = n /\ stored c 0 (seq 0 n)
    | None => ec = ER_NO_MEMORY /\ e_code (w_err w') = ec /\ own w' [] w /\ ~ no_fail w
    end).
Proof.
  unfold empty_cl_stack. set (cap := 1 + log2cap 20 n).
  apply Msat_bind. eapply Msat_mono; [apply Msat_malloc_any|]. intros a w1 (L1 & O1 & E1 & F1 & S1).
  apply Msat_bind. eapply Msat_mono; [apply Msat_malloc_any|]. intros b w2 (L2 & O2 & E2 & F2 & S2).
  assert (a = None \/ b = None -> Msat none (let* _ := free_arr a in let* _ := free_arr b in let* ec := make_error ER_NO_MEMORY src_hier 285 in Mret (ec, None : option (hstack * option (arr nat)))) w2
    (fun '(ec, r) w' => wle w w' /\
    match r with
    | Some (s, st) => w_err w' = w_err w /\ exists bc cells bs c, own w' [bc; bs] w /\ s = HS (length cells) 1 (Some (Arr bc cells)) /\ 1 <= length cells /\
        stored cells 0 [HI n 0 0] /\ st = Some (Arr bs c) /\ length c = n /\ stored c 0 (seq 0 n)
    | None => ec = ER_NO_MEMORY /\ e_code (w_err w') = ec /\ own w' [] w /\ ~ no_fail w
    end)) as Hfail.
  { intros Hn. apply Msat_bind, Msat_free_arr; [blk|]. intros w3 L3 C3 E3 _. apply Msat_bind, Msat_free_arr; [blk|]. intros w4 L4 C4 E4 _.
    apply Msat_bind, Msat_make_error__. intros w5 L5 O5 E5 _. apply Msat_ret. split; [wl|]. splits; auto; [by rewrite E5|blk|].
    intros HF. destruct Hn as [Hn|Hn]; [by apply F1|]. apply F2; [done|]. by eapply no_fail_wle. }
  destruct a as [a|]; [|by apply Hfail; left]. destruct b as [b|]; [|by apply Hfail; right].
  destruct (S1 _ eq_refl) as [bc ->]. destruct (S2 _ eq_refl) as [bs ->]. clear Hfail.
  apply Msat_bind, Msat_lift. eapply Rsat_mono; [apply (forR_sat0 none (fun i st => exists c, st = Some (Arr bs c) /\ length c = n /\ filled c (seq 0 i)) _ _ _ (fun st => exists c, st = Some (Arr bs c) /\ length c = n /\ filled c (seq 0 n)))|].
  - eexists. splits; [done|apply replicate_length|apply filled_nil].
  - intros i st Hi (c & -> & Hl & Hf). rewrite aset_cells by lia. cbn [Rsat]. eexists. splits; [done|by rewrite insert_length|]. rewrite seq_S. simpl.
    pose proof (filled_snoc c _ i Hf) as Hs. rewrite seq_length in Hs. apply Hs. lia.
  - auto.
  - intros st (c & -> & Hl & Hf). apply Msat_bind, Msat_lift. rewrite aset_cells by (unfold fresh; rewrite replicate_length; unfold cap; lia). cbn [Rsat]. apply Msat_ret. split; [wl|]. split; [congruence|].
    exists bc, (<[0:=Some (HI n 0 0)]> (fresh hitem cap)), bs, c. splits; [blk| | | |done|done|by apply filled_holds].
    + f_equal. unfold fresh. by rewrite insert_length, replicate_length.
    + unfold fresh. rewrite insert_length, replicate_length. unfold cap. lia.
    + intros i x Hi. apply list_lookup_singleton_Some in Hi as [-> <-]. apply list_lookup_insert. unfold fresh. rewrite replicate_length. unfold cap. lia.
Qed.

(** Every label is in range or [SCC_CLABEL_NA]. *)
Definition labels_valid (cl : clustering) : Prop :=
  forall x, x < c_n cl -> exists z, cells cl !! x = Some (Some z) /\ (z = cl_na cfg \/ (0 <= z < Z.of_nat (c_k cl))%Z).

Lemma na_not_label j m : (N.of_nat m <= cl_max cfg)%N -> j < m -> cl_na cfg <> Z.of_nat j.
Proof. intros H Hj. destruct Hcfg as (_ & _ & [[H1 ->]|[[H1 ->]|[H1 [->|H2]]]] & _); lia. Qed.

Lemma Msat_init_stack cl w b L : c_label cl = Some (Arr b L) -> length L = n -> c_n cl = n -> 1 <= c_k cl -> (N.of_nat (c_k cl) <= cl_max cfg)%N -> labels_valid cl ->
  Msat none (init_cl_stack cfg log2cap cl) w (fun '(ec, r) w' => wle w w' /\
    match r with
    | Some (s, st, big) => w_err w' = w_err w /\ exists bc cells bs c, own w' [bc; bs] w /\ s = HS (length cells) (c_k cl) (Some (Arr bc cells)) /\ c_k cl <= length cells /\
        stored cells 0 ((fun i => HI (length (cls L n i)) 0 (offs L n i)) <$> seq 0 (c_k cl)) /\ st = Some (Arr bs c) /\ length c = n /\
        (forall j, j < c_k cl -> stored c (offs L n j) (rev (cls L n j))) /\ (forall j, 1 <= j < c_k cl -> length (cls L n j) <= big)
    | None => ec <> ER_OK /\ e_code (w_err w') = ec /\ own w' [] w /\ ((ec = ER_NO_MEMORY /\ ~ no_fail w) \/ (ec = ER_TOO_LARGE_PROBLEM /\ (u64max < N.of_nat (c_k cl + 1 + log2cap 10 n))%N))
    end).
Proof.
  intros HL HlL Hn Hk1 Hkm Hval. unfold init_cl_stack. rewrite Hn. set (m := c_k cl) in *. set (cap := m + 1 + log2cap 10 n).
  destruct (N.ltb_spec u64max (N.of_nat cap)) as [Hbig|Hsmall].
  { apply Msat_bind, Msat_make_error__. intros w1 L1 O1 E1 _. apply Msat_ret. splits; auto. by rewrite E1. }
  apply Msat_bind. eapply Msat_mono; [apply Msat_calloc_any|]. intros a w1 (L1 & O1 & E1 & F1 & S1).
  apply Msat_bind. eapply Msat_mono; [apply Msat_malloc_any|]. intros bb w2 (L2 & O2 & E2 & F2 & S2).
  match goal with |- Msat _ _ _ ?Q => set (Post := Q) end.
  assert (a = None \/ bb = None -> Msat none (let* _ := free_arr a in let* _ := free_arr bb in let* ec := make_error ER_NO_MEMORY src_hier 326 in Mret (ec, None : option (hstack * option (arr nat) * nat))) w2 Post) as Hfail.
  { intros Hnone. apply Msat_bind, Msat_free_arr; [blk|]. intros w3 L3 C3 E3 _. apply Msat_bind, Msat_free_arr; [blk|]. intros w4 L4 C4 E4 _.
    apply Msat_bind, Msat_make_error__. intros w5 L5 O5 E5 _. apply Msat_ret. split; [wl|]. splits; auto; [by rewrite E5|blk|]. left. split; [done|].
    intros HF. destruct Hnone as [Hx|Hx]; [by apply F1|]. apply F2; [done|]. by eapply no_fail_wle. }
  destruct a as [a|]; [|by apply Hfail; left]. destruct bb as [bb|]; [|by apply Hfail; right].
  destruct (S1 _ eq_refl) as [bc ->]. destruct (S2 _ eq_refl) as [bs ->]. clear Hfail. subst Post.
  assert (forall i, i < n -> exists z, aget (c_label cl) i = Ok z /\ ((z = cl_na cfg /\ forall j, j < m -> default None (L !! i) <> Some (Z.of_nat j)) \/
    (exists j, j < m /\ z = Z.of_nat j /\ z <> cl_na cfg /\ L !! i = Some (Some (Z.of_nat j))))) as Hlab.
  { intros i Hi. destruct (Hval i) as (z & Hz & Hr); [lia|]. unfold cells in Hz. rewrite HL in Hz. simpl in Hz. exists z. split; [rewrite HL; by apply aget_cells|].
    destruct (decide (z = cl_na cfg)) as [->|Hne].
    - left. split; [done|]. intros j Hj. rewrite Hz. simpl. intros [= E]. by apply (na_not_label j m).
    - right. destruct Hr as [?|Hr]; [done|]. exists (Z.to_nat z). rewrite Z2Nat.id by lia. splits; auto. lia. }
  (* sizes *)
  apply Msat_bind, Msat_lift. eapply Rsat_mono; [apply (forR_sat0 none (fun i c => exists cs, c = Some (Arr bc cs) /\ length cs = cap /\ forall j, j < m -> cs !! j = Some (Some (HI (length (cls L i j)) 0 0))) _ _ _
    (fun c => exists cs, c = Some (Arr bc cs) /\ length cs = cap /\ forall j, j < m -> cs !! j = Some (Some (HI (length (cls L n j)) 0 0))))|].
  { eexists. splits; [done|apply replicate_length|]. intros j Hj. apply lookup_replicate_2. unfold cap. lia. }
  { intros i c Hi (cs & -> & Hl & Hcs). destruct (Hlab i Hi) as (z & -> & [[-> Hnone]|(j & Hj & -> & Hne & HLi)]); cbn [Rbind].
    - rewrite decide_True by done. cbn [Rsat]. exists cs. splits; auto. intros j Hj. rewrite cls_S, decide_False by (by apply Hnone). rewrite app_nil_r. by apply Hcs.
    - rewrite decide_False by done. unfold label_idx. rewrite decide_True by lia. cbn [Rbind]. rewrite Nat2Z.id. rewrite (aget_cells _ _ _ _ (Hcs j Hj)). cbn [Rbind hi_size hi_marker hi_mem].
      rewrite aset_cells by (unfold cap in Hl; lia). cbn [Rsat]. eexists. splits; [done|by rewrite insert_length|]. intros j' Hj'. rewrite cls_S, app_length.
      destruct (decide (j = j')) as [->|Hne'].
      + rewrite list_lookup_insert by (unfold cap in Hl; lia). rewrite decide_True by (by rewrite HLi). done.
      + rewrite list_lookup_insert_ne by done. rewrite decide_False by (rewrite HLi; simpl; intros [= E]; lia). simpl. rewrite Nat.add_0_r. by apply Hcs. }
  { auto. }
  intros c (cs & -> & Hlcs & Hcs).
  (* offsets *)
  apply Msat_bind, Msat_lift. rewrite (aget_cells _ _ _ _ (Hcs 0 ltac:(lia))). cbn [Rbind hi_size hi_marker]. rewrite aset_cells by (unfold cap in Hlcs; lia). cbn [Rsat].
  apply Msat_bind, Msat_lift. eapply Rsat_mono; [apply (forR_sat none (fun i '(c, big) => exists cs, c = Some (Arr bc cs) /\ length cs = cap /\
    (forall j, j < m -> cs !! j = Some (Some (HI (length (cls L n j)) 0 (if decide (j < i) then offs L n (S j) else 0)))) /\ (forall j, 1 <= j < i -> length (cls L n j) <= big)))|].
  { eexists. splits; [done|by rewrite insert_length| |lia]. intros j Hj. destruct j as [|j].
    - rewrite list_lookup_insert by (unfold cap in Hlcs; lia). rewrite decide_True by lia. by rewrite offs_S.
    - rewrite list_lookup_insert_ne by lia. rewrite decide_False by lia. by apply Hcs. }
  { intros i [c big] Hi (cs' & -> & Hl & Hc & Hb). rewrite (aget_cells _ _ _ _ (Hc (i - 1) ltac:(lia))). cbn [Rbind]. rewrite (aget_cells _ _ _ _ (Hc i ltac:(lia))). cbn [Rbind hi_size hi_marker hi_mem].
    rewrite (decide_True (P := i - 1 < i)) by lia. rewrite aset_cells by (unfold cap in Hl; lia). cbn [Rbind Rsat]. eexists. splits; [done|by rewrite insert_length| |].
    - intros j Hj. destruct (decide (i = j)) as [->|Hne].
      + rewrite list_lookup_insert by (unfold cap in Hl; lia). rewrite decide_True by lia. replace (S (j - 1)) with j by lia. by rewrite offs_S.
      + rewrite list_lookup_insert_ne by done. rewrite Hc by done. repeat case_decide; auto; lia.
    - intros j Hj. destruct (decide (j = i)) as [->|Hne]; [case_decide; lia|]. specialize (Hb j ltac:(lia)). case_decide; lia. }
  intros [c big] (cs1 & -> & Hl1 & Hc1 & Hbig1). replace (1 + (m - 1)) with m in * by lia.
  (* members *)
  apply Msat_bind, Msat_lift. eapply Rsat_mono; [apply (forR_sat0 none (fun i '(c, st) => exists cs sc, c = Some (Arr bc cs) /\ length cs = cap /\ st = Some (Arr bs sc) /\ length sc = n /\
    (forall j, j < m -> cs !! j = Some (Some (HI (length (cls L n j)) 0 (offs L n (S j) - length (cls L i j)))) /\ stored sc (offs L n (S j) - length (cls L i j)) (rev (cls L i j)))) _ _ _
    (fun '(c, st) => exists cs sc, c = Some (Arr bc cs) /\ length cs = cap /\ st = Some (Arr bs sc) /\ length sc = n /\
    (forall j, j < m -> cs !! j = Some (Some (HI (length (cls L n j)) 0 (offs L n j))) /\ stored sc (offs L n j) (rev (cls L n j)))))|].
  { eexists _, _. splits; [done|done|done|apply replicate_length|]. intros j Hj. split; [|apply stored_nil]. rewrite Hc1 by done. rewrite decide_True by done. do 3 f_equal. simpl. lia. }
  { intros i [c st] Hi (cs' & sc & -> & Hl & -> & Hlsc & Hj). destruct (Hlab i Hi) as (z & -> & [[-> Hnone]|(j & Hjm & -> & Hne & HLi)]); cbn [Rbind].
    - rewrite decide_True by done. cbn [Rsat]. exists cs', sc. splits; auto. intros j Hjm. rewrite cls_S, decide_False by (by apply Hnone). rewrite app_nil_r. by apply Hj.
    - rewrite decide_False by done. unfold label_idx. rewrite decide_True by lia. cbn [Rbind]. rewrite Nat2Z.id. destruct (Hj j Hjm) as [Hcj Hsj]. rewrite (aget_cells _ _ _ _ Hcj). cbn [Rbind hi_size hi_marker hi_mem].
      assert (length (cls L (S i) j) <= length (cls L n j)) as Hle by (apply cls_le; lia). rewrite cls_S, decide_True, app_length in Hle by (by rewrite HLi). simpl in Hle.
      pose proof (offs_S L n j) as Ho. pose proof (offs_le L n (S j)) as Hon. rewrite decide_False by lia. rewrite aset_cells by (unfold cap in Hl; lia). cbn [Rbind]. rewrite aset_cells by lia. cbn [Rbind Rsat].
      eexists _, _. splits; [done|by rewrite insert_length|done|by rewrite insert_length|]. intros j' Hjm'. destruct (Hj j' Hjm') as [Hcj' Hsj']. rewrite cls_S, app_length, rev_app_distr.
      destruct (decide (j = j')) as [<-|Hne'].
      + rewrite list_lookup_insert by (unfold cap in Hl; lia). rewrite decide_True by (by rewrite HLi). simpl. split; [do 3 f_equal; lia|].
        replace (offs L n (S j) - (length (cls L i j) + 1)) with (offs L n (S j) - length (cls L i j) - 1) by lia. apply stored_cons; [|lia].
        by replace (S (offs L n (S j) - length (cls L i j) - 1)) with (offs L n (S j) - length (cls L i j)) by lia.
      + rewrite list_lookup_insert_ne by done. rewrite decide_False by (rewrite HLi; simpl; intros [= E]; lia). simpl. rewrite Nat.add_0_r. split; [done|].
        eapply stored_same; [exact Hsj'|]. intros p Hp. rewrite rev_length in Hp. apply list_lookup_insert_ne. intros <-.
        assert (length (cls L i j') <= length (cls L n j')) by (apply cls_le; lia). pose proof (offs_S L n j') as Ho'.
        destruct (decide (j < j')) as [Hlt|Hge]; [pose proof (offs_mono L n (S j) j' ltac:(lia))|pose proof (offs_mono L n (S j') j ltac:(lia))]; lia. }
  { intros [c st] (cs' & sc & -> & Hl & -> & Hlsc & Hj). exists cs', sc. splits; auto. intros j Hjm. destruct (Hj j Hjm) as [H1 H2]. rewrite offs_S in H1, H2.
    replace (offs L n j + length (cls L n j) - length (cls L n j)) with (offs L n j) in * by lia. done. }
  intros [c st] (cs' & sc & -> & Hl & -> & Hlsc & Hj). apply Msat_ret. split; [wl|]. split; [congruence|]. exists bc, cs', bs, sc. splits; auto.
  - blk.
  - by rewrite Hl.
  - unfold cap in Hl. lia.
  - intros i x Hi. apply list_lookup_fmap_Some in Hi as (j & Hi & ->). apply lookup_seq in Hi as [-> Hi]. by apply Hj.
  - intros j Hjm. by apply Hj.
Qed.

(** ** The call *)

(** The part of scc_hierarchical_clustering after the stack has been made
    (src/hierarchical_clustering.c 218-262). *)
Definition hier_work (k : nat) (batch : bool) (c : clustering) (s : hstack) (st : option (arr nat)) (big : nat) : M (ecode * option clustering) :=
  let size_p := if decide (num_check < k) then k else num_check in
  let size_d := if decide (num_check < 2 * big) then 2 * big else num_check in
  let* p1 := malloc_arr nat size_p in
  let* p2 := malloc_arr nat size_p in
  let* dd := malloc_arr double size_d in
  let* mk := calloc_arr n 0%N in
  let* e1 := malloc_es big in
  let* e2 := malloc_es big in
  let* r :=
    (match p1, p2, dd, mk, e1, e2 with
     | Some _, Some _, Some _, Some _, Some _, Some _ => hi_run cfg P qs c ds k batch s (HSt p1 p2 dd mk e1 e2 st)
     | _, _, _, _, _, _ =>
         let* ec := make_error ER_NO_MEMORY src_hier 240 in
         Mret (ec, c, s, HSt p1 p2 dd mk e1 e2 st)
     end) in
  let '(ec, c, s, h) := r in
  let* _ := free_arr (h_p1 h) in
  let* _ := free_arr (h_p2 h) in
  let* _ := free_arr (h_ds h) in
  let* _ := free_arr (h_mk h) in
  let* _ := free_es (h_e1 h) in
  let* _ := free_es (h_e2 h) in
  let* _ := free_arr (s_cl s) in
  let* _ := free_arr (h_st h) in
  Mret (ec, Some c).

Definition es_blks (e : option estore) : list nat := match e with Some e => [es_blk e] | None => [] end.

Lemma Msat_malloc_es m w : Msat none (malloc_es m) w (fun r w' => wle w w' /\ own w' (es_blks r) w /\ w_err w' = w_err w /\
  (r = None -> ~ no_fail w) /\ (forall e, r = Some e -> exists b, e = ES b (fresh _ m) (fresh _ m))).
Proof.
  unfold malloc_es. apply Msat_bind, Msat_malloc.
  - intros w' L O E _ F. apply Msat_ret. splits; auto; done.
  - intros w' b L O E _. apply Msat_ret. splits; auto; [done|]. intros e [= <-]. eauto.
Qed.

Lemma Msat_free_es e w (Q : unit -> world -> Prop) : (forall x, cnt x (es_blks e) <= cnt x (w_live w)) ->
  (forall w', wle w w' -> (forall x, cnt x (w_live w) = cnt x (es_blks e) + cnt x (w_live w')) -> w_err w' = w_err w -> Q tt w') -> Msat none (free_es e) w Q.
Proof.
  intros H HQ. unfold free_es. destruct e as [e|].
  - apply Msat_free.
    + specialize (H (es_blk e)). simpl in H. rewrite decide_True in H by done. lia.
    + intros w' L C E _. apply HQ; auto. intros x. rewrite C. simpl. lia.
  - apply HQ; [apply wle_refl|by intros x|done].
Qed.

(** What a call leaves of the clustering if it made it so far. *)
Definition hier_result (k : nat) (batch : bool) (starts : list (list nat)) (q : nat) (olds : list (list nat)) (L0 : list (option Z)) (k0 W : nat) (w : world) (ec : ecode) (cl : clustering) (w' : world) : Prop :=
  exists bl L, c_label cl = Some (Arr bl L) /\ length L = n /\
    ((ec = ER_OK /\ w_err w' = w_err w /\ (N.of_nat (c_k cl) <= cl_max cfg)%N /\ c_k cl * q <= n /\
      (forall x z, L !! x = Some z -> L0 !! x = Some z \/ exists i, i < c_k cl /\ z = Some (Z.of_nat i)) /\
      (few_duplicates n D (2 * k) -> exists news, length news = c_k cl /\ refined k olds news /\ labelled L news /\ forall x, x ∉ concat olds -> L !! x = L0 !! x) /\
      (sorts qs -> exists news, length news = c_k cl /\ hier_forest k (if batch then k else 1) G D starts news /\ painted L0 L news)) \/
     (ec <> ER_OK /\ c_k cl = k0 /\ e_code (w_err w') = ec /\
      ((ec = ER_NO_MEMORY /\ ~ no_fail w) \/ (ec = ER_DIST_SEARCH_ERROR /\ ~ solid w) \/
       (ec = ER_TOO_LARGE_PROBLEM /\ ((cl_max cfg * N.of_nat q < N.of_nat n)%N \/ (u64max < 2 * N.of_nat W + 16)%N))))).

Lemma Msat_hier_work k batch c s st big w its olds bl L bc cells bs cc q :
  2 <= k -> (N.of_nat (2 * k) <= u32max)%N -> 1 <= q <= k ->
  c_label c = Some (Arr bl L) -> length L = n -> c_n c = n ->
  s = HS (length cells) (length its) (Some (Arr bc cells)) -> length its <= length cells -> stored cells 0 (rev its.*1) ->
  st = Some (Arr bs cc) -> length cc = n -> (forall x, cnt x [bc; bs] <= cnt x (w_live w)) ->
  (forall it ms, (it, ms) ∈ its -> hi_size it = length ms /\ hi_marker it = 0%N /\ NoDup ms /\ Forall (fun x => x < n) ms /\ stored cc (hi_mem it) ms /\ (2 * k <= length ms -> length ms <= big)) ->
  lay n its -> NoDup (bigs k its) -> total its <= n -> Forall (fun ms => ms = [] \/ q <= length ms) its.*2 ->
  NoDup (concat olds) -> nested k olds L its [] L ->
  Msat none (hier_work k batch c s st big) w (fun '(ec, r) w' => wle w w' /\ (forall x, cnt x (w_live w) = cnt x [bc; bs] + cnt x (w_live w')) /\
    exists cl, r = Some cl /\ c_version cl = c_version c /\ c_n cl = n /\ c_ext cl = c_ext c /\ (exists L', c_label cl = Some (Arr bl L')) /\ hier_result k batch (its.*2) q olds L (c_k c) (2 * n + length its) w ec cl w').
Proof.
  intros Hk2 Hku Hq Hcl HlL Hcn -> Hcap Hst -> Hlcc Hlive Hits Hlay Hbigs Htot Hmin Holds Hnest. unfold hier_work.
  set (size_p := if decide (num_check < k) then k else num_check). set (size_d := if decide (num_check < 2 * big) then 2 * big else num_check).
  assert (num_check <= size_p /\ k <= size_p) as [Hp1 Hp2] by (unfold size_p; case_decide; lia). assert (num_check <= size_d /\ 2 * big <= size_d) as [Hd1 Hd2] by (unfold size_d; case_decide; lia).
  apply Msat_bind. eapply Msat_mono; [apply Msat_malloc_any|]. intros p1 w1 (L1 & O1 & E1 & F1 & S1).
  apply Msat_bind. eapply Msat_mono; [apply Msat_malloc_any|]. intros p2 w2 (L2 & O2 & E2 & F2 & S2).
  apply Msat_bind. eapply Msat_mono; [apply Msat_malloc_any|]. intros dd w3 (L3 & O3 & E3 & F3 & S3).
  apply Msat_bind. eapply Msat_mono; [apply Msat_calloc_any|]. intros mk w4 (L4 & O4 & E4 & F4 & S4).
  apply Msat_bind. eapply Msat_mono; [apply Msat_malloc_es|]. intros e1 w5 (L5 & O5 & E5 & F5 & S5).
  apply Msat_bind. eapply Msat_mono; [apply Msat_malloc_es|]. intros e2 w6 (L6 & O6 & E6 & F6 & S6).
  (* what remains once the work has been done *)
  eapply Msat_bind_mono with (P := fun '(ec, cl, s, h) w7 => wle w w7 /\
    (forall x, cnt x (w_live w7) + cnt x [bc; bs] = cnt x (arr_blk (h_p1 h)) + cnt x (arr_blk (h_p2 h)) + cnt x (arr_blk (h_ds h)) + cnt x (arr_blk (h_mk h)) + cnt x (es_blks (h_e1 h)) + cnt x (es_blks (h_e2 h)) + cnt x (arr_blk (s_cl s)) + cnt x (arr_blk (h_st h)) + cnt x (w_live w)) /\
    c_version cl = c_version c /\ c_n cl = n /\ c_ext cl = c_ext c /\ (exists L', c_label cl = Some (Arr bl L')) /\ hier_result k batch (its.*2) q olds L (c_k c) (2 * n + length its) w ec cl w7).
  2:{ intros [[[ec cl] s] h] w7 (L7 & C7 & Hv & Hn & Hx & Hlb & Hres).
      apply Msat_bind, Msat_free_arr; [blk|]. intros w8 L8 C8 E8 _. apply Msat_bind, Msat_free_arr; [blk|]. intros w9 L9 C9 E9 _.
      apply Msat_bind, Msat_free_arr; [blk|]. intros w10 L10 C10 E10 _. apply Msat_bind, Msat_free_arr; [blk|]. intros w11 L11 C11 E11 _.
      apply Msat_bind, Msat_free_es; [blk|]. intros w12 L12 C12 E12. apply Msat_bind, Msat_free_es; [blk|]. intros w13 L13 C13 E13.
      apply Msat_bind, Msat_free_arr; [blk|]. intros w14 L14 C14 E14 _. apply Msat_bind, Msat_free_arr; [blk|]. intros w15 L15 C15 E15 _.
      apply Msat_ret. split; [wl|]. split; [blk|]. exists cl. splits; auto.
      assert (w_err w15 = w_err w7) as Eerr by congruence. unfold hier_result in *. by rewrite Eerr. }
  assert (p1 = None \/ p2 = None \/ dd = None \/ mk = None \/ e1 = None \/ e2 = None \/
    exists bp1 bp2 bd bm be1 be2, p1 = Some (Arr bp1 (fresh nat size_p)) /\ p2 = Some (Arr bp2 (fresh nat size_p)) /\ dd = Some (Arr bd (fresh double size_d)) /\ mk = Some (Arr bm (replicate n (Some 0%N))) /\
      e1 = Some (ES be1 (fresh _ big) (fresh _ big)) /\ e2 = Some (ES be2 (fresh _ big) (fresh _ big))) as Hcases.
  { destruct p1 as [p1|]; [|by left]. destruct p2 as [p2|]; [|by right; left]. destruct dd as [dd|]; [|by right; right; left]. destruct mk as [mk|]; [|by do 3 right; left].
    destruct e1 as [e1|]; [|by do 4 right; left]. destruct e2 as [e2|]; [|by do 5 right; left]. do 6 right.
    destruct (S1 _ eq_refl) as [? ->]. destruct (S2 _ eq_refl) as [? ->]. destruct (S3 _ eq_refl) as [? ->]. destruct (S4 _ eq_refl) as [? ->]. destruct (S5 _ eq_refl) as [? ->]. destruct (S6 _ eq_refl) as [? ->].
    do 6 eexists. splits; reflexivity. }
  match goal with |- Msat _ _ _ ?Q => set (Post := Q) end.
  assert ((p1 = None \/ p2 = None \/ dd = None \/ mk = None \/ e1 = None \/ e2 = None) -> Msat none (let* ec := make_error ER_NO_MEMORY src_hier 240 in Mret (ec, c, HS (length cells) (length its) (Some (Arr bc cells)), HSt p1 p2 dd mk e1 e2 (Some (Arr bs cc)))) w6 Post) as Hfail.
  { intros Hnone. apply Msat_bind, Msat_make_error__. intros w7 L7 O7 E7 _. apply Msat_ret. split; [wl|]. split; [cbn [h_p1 h_p2 h_ds h_mk h_e1 h_e2 h_st s_cl arr_blk a_blk]; clear Hlive; blk|]. splits; eauto.
    exists bl, L. splits; auto. right. split; [done|]. split; [done|]. split; [by rewrite E7|]. left. split; [done|]. intros HF.
    destruct Hnone as [H|[H|[H|[H|[H|H]]]]]; [apply F1|apply F2|apply F3|apply F4|apply F5|apply F6]; auto; (eapply no_fail_wle; [exact HF|]; wl). }
  destruct Hcases as [H|[H|[H|[H|[H|[H|H]]]]]].
  { assert (p1 = None \/ p2 = None \/ dd = None \/ mk = None \/ e1 = None \/ e2 = None) as Hn by tauto. specialize (Hfail Hn). subst. exact Hfail. }
  { assert (p1 = None \/ p2 = None \/ dd = None \/ mk = None \/ e1 = None \/ e2 = None) as Hn by tauto. specialize (Hfail Hn). subst. destruct p1; exact Hfail. }
  { assert (p1 = None \/ p2 = None \/ dd = None \/ mk = None \/ e1 = None \/ e2 = None) as Hn by tauto. specialize (Hfail Hn). subst. destruct p1, p2; exact Hfail. }
  { assert (p1 = None \/ p2 = None \/ dd = None \/ mk = None \/ e1 = None \/ e2 = None) as Hn by tauto. specialize (Hfail Hn). subst. destruct p1, p2, dd; exact Hfail. }
  { assert (p1 = None \/ p2 = None \/ dd = None \/ mk = None \/ e1 = None \/ e2 = None) as Hn by tauto. specialize (Hfail Hn). subst. destruct p1, p2, dd, mk; exact Hfail. }
  { assert (p1 = None \/ p2 = None \/ dd = None \/ mk = None \/ e1 = None \/ e2 = None) as Hn by tauto. specialize (Hfail Hn). subst. destruct p1, p2, dd, mk, e1; exact Hfail. }
  clear Hfail. destruct H as (bp1 & bp2 & bd & bm & be1 & be2 & -> & -> & -> & -> & -> & ->).
  set (v := HShape bp1 bp2 bd bm be1 be2 bs size_p size_d big). unfold hi_run. cbn [s_items]. apply Msat_bind.
  eapply (Msat_run_loop cfg P V ds n G D Hcfg HP HG qs Hqs k batch v Hk2 Hku Hp1 Hd1 Hp2 olds L (its.*2) Holds q n w6 bc bl (2 * n + length its)).
  - done.
  - intros x. specialize (Hlive x). assert (cnt x (w_live w) <= cnt x (w_live w6)) by (clear Hlive; revert x; blk). simpl in *. lia.
  - split; [apply wle_refl|]. split; [done|]. exists its, (replicate n 0%N), cc, bc, cells, L. splits; auto; try lia.
    + split; cbn; [by eexists; split; [done|apply replicate_length]|]. splits; auto.
      * eexists; split; [done|apply replicate_length].
      * eexists; split; [done|apply replicate_length].
      * by rewrite fmap_replicate.
      * eexists _, _. splits; [done|apply replicate_length..].
      * eexists _, _. splits; [done|apply replicate_length..].
    + apply replicate_length.
    + constructor; [|by rewrite Hlcc|done]. apply Forall_forall. intros [it ms] Hin. destruct (Hits _ _ Hin) as (H1 & H2 & H3 & H4 & H5 & H6). cbn [item_ok]. splits; auto. rewrite H2. intros Hb. specialize (H6 Hb).
      splits; [|lia|done|cbn; lia]. intros x Hx. exists 0%N. split; [|lia]. apply lookup_replicate_2. by eapply Forall_forall in H4.
    + pose proof (weight_total its). lia.
    + intros _. exists []. split; [done|]. done.
    + intros _. exists []. split; [done|]. split; [|intros rs Hrs; by exists rs]. intros x Hx. left. split; [apply not_elem_of_nil|done].
  - rewrite Hcn. lia.
  - intros [ec [[[s' lab] cur] h]] w7 (L7 & M & c' & bc' & cells' & L' & C7 & Hs' & Hok & -> & HlL' & Hrange & Hout). apply Msat_ret.
    destruct Hok as ((a1 & Ea1 & _) & (a2 & Ea2 & _) & (a3 & Ea3 & _) & Emk & (hd1 & nx1 & Ee1 & _) & (hd2 & nx2 & Ee2 & _) & Est).
    split; [wl|]. split.
    { rewrite Hs', Ea1, Ea2, Ea3, Emk, Ee1, Ee2, Est. cbn [arr_blk a_blk es_blks es_blk v_p1 v_p2 v_d v_m v_e1 v_e2 v_s v] in *. clear Hlive. blk. }
    assert (forall cl, cl = (if decide (ec = ER_OK) then set_k (set_label c (Some (Arr bl L'))) cur else set_label c (Some (Arr bl L'))) ->
      c_version cl = c_version c /\ c_n cl = n /\ c_ext cl = c_ext c /\ c_label cl = Some (Arr bl L') /\ c_k cl = if decide (ec = ER_OK) then cur else c_k c) as Hcl'.
    { intros cl ->. case_decide; cbn; auto. }
    destruct (Hcl' _ eq_refl) as (H1 & H2 & H3 & H4 & H5). splits; auto; [by eexists|]. exists bl, L'. splits; auto. rewrite H5.
    destruct Hout as [(-> & E7 & Hmax & Hcur & Href & Htr)|(Hec & Hcode & Hf)].
    + left. rewrite decide_True by done. splits; auto; congruence.
    + right. rewrite decide_False by done. splits; auto. destruct Hf as [[-> Hf]|[[-> Hf]|[-> Hf]]]; [left|right; left|right; right]; (split; [done|]); auto.
      * intros HS. apply Hf. eapply no_fail_wle; [exact HS|]. wl.
      * intros HS. apply Hf. eapply solid_wle; [|exact HS]. wl.
Qed.

(** The clusters to start from. *)
Definition start (cl : clustering) : list (list nat) := if decide (c_k cl = 0) then [seq 0 (c_n cl)] else cluster cl <$> seq 0 (c_k cl).

(** The same in the order in which they are taken up, with the members in the order in
    which they are stored. *)
Definition starts_of (cl : clustering) : list (list nat) :=
  if decide (c_k cl = 0) then [seq 0 (c_n cl)] else (fun j => rev (cluster cl j)) <$> rev (seq 0 (c_k cl)).

(** The labels to start from; those of an array that is yet to be allocated were
    never written. *)
Definition start_cells (cl : clustering) : list (option Z) := match c_label cl with Some a => a_cells a | None => fresh Z (c_n cl) end.

(** The first cluster needs no splitting, or is not larger than every other one. *)
Definition first_fits (k : nat) (cl : clustering) : Prop :=
  length (cluster cl 0) < 2 * k \/ exists i, 1 <= i < c_k cl /\ length (cluster cl 0) <= length (cluster cl i).

(** No more is known about the smallest cluster of an existing clustering than that it
    is not empty. *)
Definition smallest (k : nat) (cl : clustering) : nat := if decide (c_k cl = 0) then k else 1.

Definition hier_fail (k : nat) (cl : clustering) (w : world) (ec : ecode) (w' : world) : Prop :=
  e_code (w_err w') = ec /\
  ((ec = ER_NO_MEMORY /\ ~ no_fail w) \/ (ec = ER_DIST_SEARCH_ERROR /\ ~ solid w) \/
   (ec = ER_TOO_LARGE_PROBLEM /\ ((cl_max cfg * N.of_nat (smallest k cl) < N.of_nat n)%N \/ (u64max < N.of_nat (4 * n + 2 * c_k cl + 18))%N \/
      (c_k cl <> 0 /\ (u64max < N.of_nat (c_k cl + 1 + log2cap 10 n))%N)))).

Lemma Msat_hierarchical k batch cl w :
  is_initialized_clustering cfg (Some cl) = true -> clu_ok cl -> p_check P ds = true -> p_num P ds = n -> c_n cl = n ->
  2 <= k -> k <= n -> (N.of_nat (2 * k) <= u32max)%N -> (c_k cl = 0 \/ (labels_valid cl /\ first_fits k cl)) ->
  Msat none (hierarchical_clustering cfg P qs log2cap ds k batch (Some cl)) w (fun '(ec, r) w' => wle w w' /\
    exists cl', r = Some cl' /\ labels_own cl cl' w w' /\ clu_kept cl cl' /\
      ((ec = ER_OK /\ w_err w' = w_err w /\ (N.of_nat (c_k cl') <= cl_max cfg)%N /\ c_k cl' * smallest k cl <= n /\ length (cells cl') = n /\ 
        (forall x z, cells cl' !! x = Some z -> start_cells cl !! x = Some z \/ exists i, i < c_k cl' /\ z = Some (Z.of_nat i)) /\
        (few_duplicates n D (2 * k) -> exists news, length news = c_k cl' /\ refined k (start cl) news /\ labelled (cells cl') news /\
           forall x, x ∉ concat (start cl) -> cells cl' !! x = start_cells cl !! x) /\
        (sorts qs -> exists news, length news = c_k cl' /\ hier_forest k (if batch then k else 1) G D (starts_of cl) news /\ painted (start_cells cl) (cells cl') news)) \/
       (ec <> ER_OK /\ c_k cl' = c_k cl /\ hier_fail k cl w ec w'))).
Proof.
  intros Hinit Hclok Hchk Hnum Hn Hk2 Hkn Hku Hmode. unfold hierarchical_clustering. rewrite Hinit, Hchk. cbn [negb].
  rewrite (decide_False (P := p_num P ds <> c_n cl)) by lia. rewrite (decide_False (P := k < 2)) by lia. rewrite (decide_False (P := c_n cl < k)) by lia. rewrite Hn.
  assert ((N.of_nat (c_k cl) <= cl_max cfg)%N /\ (c_k cl <> 0 -> is_Some (c_label cl))) as [Hkmax Hlabel].
  { unfold is_initialized_clustering in Hinit. destruct (decide (c_version cl <> clustering_version)); [done|]. destruct (decide (c_n cl = 0)); [done|].
    destruct (pi_max cfg <? N.of_nat (c_n cl))%N; [done|]. destruct (N.ltb_spec (cl_max cfg) (N.of_nat (c_k cl))); [done|]. split; [done|].
    intros Hk0. destruct (c_label cl); [by eexists|]. destruct (decide (0 < c_k cl)); [done|lia]. }
  assert (clu_kept cl cl) as Hkept. { constructor; auto. unfold clu_ok in Hclok. destruct (c_label cl); auto. }
  destruct (decide (c_k cl = 0)) as [Hk0|Hk0].
  - (* from scratch *)
    apply Msat_bind.
    eapply Msat_bind_mono with (P := fun '(ok, c) w1 => wle w w1 /\ labels_own cl c w w1 /\ clu_kept cl c /\ w_err w1 = w_err w /\ c_k c = 0 /\
      if (ok : bool) then exists bl, c_label c = Some (Arr bl (start_cells cl)) else ~ no_fail w).
    { unfold start_cells. unfold clu_ok in Hclok. destruct (c_label cl) as [[bl L]|] eqn:EL.
      - apply Msat_ret. splits; [apply wle_refl|intros x; lia|done|done|done|]. by exists bl.
      - apply Msat_bind. eapply Msat_mono; [apply Msat_malloc_any|]. intros a w1 (L1 & O1 & E1 & F1 & S1). apply Msat_ret. splits; auto.
        + unfold labels_own. rewrite EL. cbn [c_label arr_blk]. blk.
        + constructor; cbn; auto. rewrite EL. destruct a as [a|]; [|done]. destruct (S1 _ eq_refl) as [b ->]. cbn. unfold fresh. by rewrite replicate_length.
        + destruct a as [a|]; [|by apply F1]. destruct (S1 _ eq_refl) as [b ->]. exists b. cbn. by rewrite Hn. }
    intros [ok c] w1 (L1 & C1 & Hkc & E1 & Hck & Hok). destruct ok; cbn [negb].
    2:{ apply Msat_bind, Msat_make_error__. intros w2 L2 O2 E2 _. apply Msat_ret. apply Msat_ret. split; [wl|]. exists c. splits; auto; [unfold labels_own in *; blk|]. right. split; [done|]. split; [congruence|].
        split; [by rewrite E2|]. by left. }
    destruct Hok as [bl Hbl]. apply Msat_bind. eapply Msat_mono; [apply Msat_empty_stack|]. intros [ec [[s st]|]] w2 [L2 H2].
    2:{ destruct H2 as (-> & H2 & O2 & F2). apply Msat_ret. apply Msat_ret. split; [wl|]. exists c. splits; auto; [unfold labels_own in *; blk|]. right. split; [done|]. split; [congruence|].
        split; [done|]. left. split; [done|]. intros HF. apply F2. by eapply no_fail_wle. }
    destruct H2 as (E2 & bc & cs & bs & cc & O2 & -> & Hcap & Hst & -> & Hlcc & Hcc). apply Msat_ret.
    assert (length (start_cells cl) = n) as HlL. { unfold start_cells. unfold clu_ok in Hclok. destruct (c_label cl); [lia|]. unfold fresh. rewrite replicate_length. lia. }
    assert (starts_of cl = [seq 0 n]) as Hstarts. { unfold starts_of. rewrite decide_True by done. by rewrite Hn. }
    assert (start cl = [seq 0 n]) as Hstart. { unfold start. rewrite decide_True by done. by rewrite Hn. }
    change (Msat none (hier_work k batch c (HS (length cs) 1 (Some (Arr bc cs))) (Some (Arr bs cc)) n) w2 (fun '(ec, r) w' => wle w w' /\
      exists cl', r = Some cl' /\ labels_own cl cl' w w' /\ clu_kept cl cl' /\
      ((ec = ER_OK /\ w_err w' = w_err w /\ (N.of_nat (c_k cl') <= cl_max cfg)%N /\ c_k cl' * smallest k cl <= n /\ length (cells cl') = n /\
        (forall x z, cells cl' !! x = Some z -> start_cells cl !! x = Some z \/ exists i, i < c_k cl' /\ z = Some (Z.of_nat i)) /\
        (few_duplicates n D (2 * k) -> exists news, length news = c_k cl' /\ refined k (start cl) news /\ labelled (cells cl') news /\
           forall x, x ∉ concat (start cl) -> cells cl' !! x = start_cells cl !! x) /\
        (sorts qs -> exists news, length news = c_k cl' /\ hier_forest k (if batch then k else 1) G D (starts_of cl) news /\ painted (start_cells cl) (cells cl') news)) \/
       (ec <> ER_OK /\ c_k cl' = c_k cl /\ hier_fail k cl w ec w')))).
    eapply Msat_mono; [eapply (Msat_hier_work k batch c _ _ n w2 [(HI n 0 0, seq 0 n)] [seq 0 n] bl (start_cells cl) bc cs bs cc k)|]; auto.
    + lia.
    + rewrite (ck_n _ _ Hkc). done.
    + clear -O2. blk.
    + intros it ms Hin. apply elem_of_list_singleton in Hin as [= -> ->]. cbn. rewrite seq_length. splits; auto; [apply NoDup_seq|].
      apply Forall_forall. intros x Hx. apply elem_of_seq in Hx. lia.
    + cbn. rewrite seq_length. lia.
    + rewrite bigs_cons. rewrite app_nil_r. case_decide; [apply NoDup_seq|constructor].
    + rewrite total_cons. rewrite seq_length. unfold total. simpl. lia.
    + apply Forall_singleton. right. cbn. by rewrite seq_length.
    + simpl. rewrite app_nil_r. apply NoDup_seq.
    + split; [done|]. splits; auto; [|intros i d x Hd; by apply lookup_nil in Hd || by rewrite lookup_nil in Hd].
      apply Forall_singleton. exists (seq 0 n). split; [by apply elem_of_list_singleton|by left].
    + clear ec. intros [ec r] w3 (L3 & C3 & cl' & -> & Hv & Hcn & Hx & (L' & HL') & b' & L'' & HL'' & Hl'' & Hres). split; [wl|]. exists cl'. split; [done|]. assert (cells cl' = L'') as Hcells by (unfold cells; by rewrite HL'').
      rewrite HL' in HL''. injection HL'' as <- <-. split; [|split].
      * unfold labels_own in *. rewrite Hbl in C1. rewrite HL'. cbn [arr_blk a_blk] in *. blk.
      * destruct Hkc as [Hv' Hn' Hl']. constructor; [congruence|congruence|]. rewrite HL'. rewrite Hbl in Hl'. destruct (c_label cl) as [a|] eqn:Ea; cbn [a_blk a_cells] in *.
        -- destruct Hl' as (<- & Hl' & <-). splits; auto. congruence.
        -- destruct Hl' as (Hl' & <-). split; [lia|done].
      * rewrite Hcells, Hstart, Hstarts. unfold smallest. rewrite decide_True by done. destruct Hres as [(-> & E3 & H1 & H2 & H3 & H4 & H5)|(Hec & H1 & H2 & H3)].
        -- left. splits; auto. congruence.
        -- right. splits; auto; [congruence|]. split; [done|]. destruct H3 as [[-> H3]|[[-> H3]|[-> H3]]]; [left|right; left|right; right]; (split; [done|]).
           ++ intros HF. apply H3. eapply no_fail_wle; [exact HF|]. wl.
           ++ intros HF. apply H3. eapply solid_wle; [|exact HF]. wl.
           ++ unfold smallest. rewrite decide_True by done. destruct H3 as [H3|H3]; [by left|]. right. left. simpl length in H3. lia.
  - (* refinement *)
    destruct Hmode as [?|[Hval Hfit]]; [done|]. destruct (Hlabel Hk0) as [[bl L] HL]. unfold clu_ok in Hclok. rewrite HL in Hclok. cbn [a_cells] in Hclok.
    assert (length L = n) as HlL by lia. assert (cells cl = L) as Hcl by (unfold cells; by rewrite HL). assert (start_cells cl = L) as Hscl by (unfold start_cells; by rewrite HL).
    assert (forall i, cluster cl i = cls L n i) as Hclu. { intros i. unfold cluster, cls, label_of. by rewrite Hcl, Hn. }
    assert (start cl = cls L n <$> seq 0 (c_k cl)) as Hstart. { unfold start. rewrite decide_False by done. apply list_fmap_ext. intros ? i _. apply Hclu. }
    assert (starts_of cl = (its_of L n (c_k cl)).*2) as Hstarts. { unfold starts_of. rewrite decide_False by done. rewrite its_of_second. apply list_fmap_ext. intros ? i _. by rewrite Hclu. }
    apply Msat_bind, Msat_bind. eapply Msat_mono; [apply (Msat_init_stack cl w bl L); auto; lia|]. intros [ec [[[s st] big]|]] w2 [L2 H2].
    2:{ destruct H2 as (Hec & H2 & O2 & F2). apply Msat_ret. apply Msat_ret. split; [wl|]. exists cl. splits; auto; [unfold labels_own in *; blk|]. right. splits; auto.
        split; [done|]. destruct F2 as [F2|[-> F2]]; [by left|]. right. right. split; [done|]. auto. }
    destruct H2 as (E2 & bc & cs & bs & cc & O2 & -> & Hcap & Hst & -> & Hlcc & Hcc & Hbig). apply Msat_ret.
    change (Msat none (hier_work k batch cl (HS (length cs) (c_k cl) (Some (Arr bc cs))) (Some (Arr bs cc)) big) w2 (fun '(ec, r) w' => wle w w' /\
      exists cl', r = Some cl' /\ labels_own cl cl' w w' /\ clu_kept cl cl' /\
      ((ec = ER_OK /\ w_err w' = w_err w /\ (N.of_nat (c_k cl') <= cl_max cfg)%N /\ c_k cl' * smallest k cl <= n /\ length (cells cl') = n /\
        (forall x z, cells cl' !! x = Some z -> start_cells cl !! x = Some z \/ exists i, i < c_k cl' /\ z = Some (Z.of_nat i)) /\
        (few_duplicates n D (2 * k) -> exists news, length news = c_k cl' /\ refined k (start cl) news /\ labelled (cells cl') news /\
           forall x, x ∉ concat (start cl) -> cells cl' !! x = start_cells cl !! x) /\
        (sorts qs -> exists news, length news = c_k cl' /\ hier_forest k (if batch then k else 1) G D (starts_of cl) news /\ painted (start_cells cl) (cells cl') news)) \/
       (ec <> ER_OK /\ c_k cl' = c_k cl /\ hier_fail k cl w ec w')))).
    eapply Msat_mono; [eapply (Msat_hier_work k batch cl _ _ big w2 (its_of L n (c_k cl)) (start cl) bl L bc cs bs cc 1)|]; auto; rewrite ?its_of_length; auto.
    + lia.
    + by rewrite its_of_items.
    + clear -O2. blk.
    + intros it ms Hin. apply its_of_elem in Hin as (i & Hi & -> & ->). cbn. rewrite rev_length. splits; auto.
      * rewrite <- Permutation_rev. apply cls_nodup.
      * apply Forall_forall. intros x Hx. rewrite <- Permutation_rev in Hx. apply elem_cls in Hx. lia.
      * intros Hb. destruct i as [|i]; [|apply Hbig; lia]. destruct Hfit as [Hfit|(j & Hj & Hfit)]; rewrite !Hclu in Hfit; [lia|]. specialize (Hbig j Hj). lia.
    + apply its_of_lay, offs_le.
    + apply its_of_bigs.
    + rewrite its_of_total. apply offs_le.
    + apply Forall_forall. intros ms _. destruct ms; [by left|right; simpl; lia].
    + rewrite Hstart. apply concat_cls_nodup.
    + split; [simpl; rewrite Hstart; apply its_of_members|]. splits; auto; [|intros i d x Hd; by rewrite lookup_nil in Hd].
      apply Forall_forall. intros ms Hms. apply elem_of_list_fmap in Hms as ([it ms'] & -> & Hin). apply its_of_elem in Hin as (i & Hi & -> & ->). exists (cls L n i). split; [|left; simpl; by rewrite <- Permutation_rev].
      rewrite Hstart. apply elem_of_list_fmap. exists i. split; [done|]. apply elem_of_seq. lia.
    + clear ec. intros [ec r] w3 (L3 & C3 & cl' & -> & Hv & Hcn & Hx & (L' & HL') & b' & L'' & HL'' & Hl'' & Hres). split; [wl|]. exists cl'. split; [done|]. assert (cells cl' = L'') as Hcells by (unfold cells; by rewrite HL'').
      rewrite HL' in HL''. injection HL'' as <- <-. split; [|split].
      * unfold labels_own in *. rewrite HL', HL. cbn [arr_blk a_blk] in *. blk.
      * constructor; [congruence|congruence|]. rewrite HL', HL. cbn. splits; auto. congruence.
      * rewrite Hcells, Hscl, Hstarts. unfold smallest. rewrite decide_False by done. destruct Hres as [(-> & E3 & H1 & H2 & H3 & H4 & H5)|(Hec & H1 & H2 & H3)].
        -- left. splits; auto. congruence.
        -- right. splits; auto. split; [done|]. destruct H3 as [[-> H3]|[[-> H3]|[-> H3]]]; [left|right; left|right; right]; (split; [done|]).
           ++ intros HF. apply H3. eapply no_fail_wle; [exact HF|]. wl.
           ++ intros HF. apply H3. eapply solid_wle; [|exact HF]. wl.
           ++ unfold smallest. rewrite decide_False by done. destruct H3 as [H3|H3]; [by left|]. right. left. lia.
Qed.
End Top.
