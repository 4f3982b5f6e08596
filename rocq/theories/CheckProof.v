(** scc_check_clustering decides what it is documented to decide. *)

From stdpp Require Import prelude list sorting.
From Coq Require Import NArith ZArith.
From Verif Require Import Base World Mem Digraph DigraphRep DigraphOps Float Spi Options Arrays NngStage TypeCount BatchProof OptionsProof ScSpec ClusSpec Hier HierTop Util.

(** Every label has been written. *)
Definition all_written (c : clustering) : Prop := length (cells c) = c_n c /\ forall x, x < c_n c -> label_of c x <> None.

(** What scc_check_clustering is to decide. *)
Record passes (cfg : config) (c : clustering) (o : options) : Prop := {
  ps_labels : forall x, x < c_n c -> unlabelled cfg c x \/ in_cluster c x;
  ps_primary : forall p i x, o_prim o = Some p -> i < o_len_prim o -> p !! i = Some x -> ~ unlabelled cfg c x;
  ps_size : forall i, i < c_k c -> o_size o <= length (cluster c i);
  ps_types : 2 <= o_num_types o -> forall i t m, i < c_k c -> t < o_num_types o -> tcons_of o !! t = Some m ->
    m <= length (of_type (tlabels_of o) t (cluster c i))
}.

(** Requirements on the options that scc_check_clustering does not check. *)
Record check_sane (o : options) (n k : nat) : Prop := {
  cs_prim : forall p, o_prim o = Some p -> o_len_prim o <= length p /\ Forall (fun x => x < n) (take (o_len_prim o) p);
  cs_tcons : forall l, o_tcons o = Some l -> o_num_types o <= length l;
  cs_tlabels : forall l, o_tlabels o = Some l -> n <= length l /\ Forall (fun t => t < o_num_types o) (take n l);
  cs_prod : 2 <= o_num_types o -> (N.of_nat (o_num_types o * k) <= u64max)%N
}.

Section Check.
Context (cfg : config) (c : clustering) (o : options).
Hypothesis (Hcfg : config_ok cfg) (Hkm : (N.of_nat (c_k c) <= cl_max cfg)%N) (Hk : c_k c <> 0) (Hw : all_written c).
Hypothesis (Hs : check_sane o (c_n c) (c_k c)).
Notation n := (c_n c).
Notation k := (c_k c).

Lemma written_get x : x < n -> exists z, aget (c_label c) x = Ok z /\ cells c !! x = Some (Some z) /\ label_of c x = Some z.
Proof.
  intros Hx. destruct Hw as [Hl Hn]. specialize (Hn x Hx). unfold label_of in *. destruct (cells c !! x) as [[z|]|] eqn:E; simpl in Hn; [|done|done].
  exists z. splits; auto. unfold cells in E. destruct (c_label c) as [a|]; [|done]. destruct a as [b L]. by apply aget_cells.
Qed.

Lemma label_cases x z : x < n -> label_of c x = Some z -> (unlabelled cfg c x \/ in_cluster c x) <-> (z = cl_na cfg \/ (0 <= z < Z.of_nat k)%Z).
Proof.
  intros Hx Hz. unfold unlabelled, in_cluster. rewrite Hz. split.
  - intros [[= ->]|(i & Hi & H)]; [by left|]. apply elem_of_list_filter in H as [H _]. rewrite Hz in H. injection H as ->. right. lia.
  - intros [->|H]; [by left|]. right. exists (Z.to_nat z). split; [lia|]. apply elem_of_list_filter. rewrite Hz, Z2Nat.id by lia. split; [done|]. apply elem_of_seq. lia.
Qed.

Lemma labels_in_range_sat B : Rsat B (labels_in_range cfg c) (fun ok => ok = true <-> forall x, x < n -> unlabelled cfg c x \/ in_cluster c x).
Proof.
  unfold labels_in_range. apply Rsat_bind. eapply Rsat_mono; [apply (loopR_sat B (fun i _ => forall x, x < i -> unlabelled cfg c x \/ in_cluster c x)
    (fun _ => ~ forall x, x < n -> unlabelled cfg c x \/ in_cluster c x))|].
  - lia.
  - intros i [] Hi HI. destruct (written_get i) as (z & -> & _ & Hz); [lia|]. cbn [Rbind]. pose proof (label_cases i z ltac:(lia) Hz) as Hc.
    assert (z = cl_na cfg \/ (0 <= z < Z.of_nat k)%Z -> forall x, x < S i -> unlabelled cfg c x \/ in_cluster c x) as Hgo.
    { intros Hzz x Hx. destruct (decide (x = i)) as [->|]; [by apply Hc|]. apply HI. lia. }
    case_decide; [cbn [Rsat]; apply Hgo; lia|]. case_decide; [cbn [Rsat]; apply Hgo; lia|]. case_decide; [cbn [Rsat]; apply Hgo; by left|]. cbn [Rsat].
    intros H3. destruct Hc as [Hc _]. specialize (Hc (H3 i ltac:(lia))). lia.
  - intros [[]|[]]; cbn [Rsat]; simpl; [done|]. intros H. split; [done|]. intros ?. by destruct H.
Qed.

Lemma primary_labelled_sat B : Rsat B (primary_labelled cfg c o) (fun ok => ok = true <-> forall p i x, o_prim o = Some p -> i < o_len_prim o -> p !! i = Some x -> ~ unlabelled cfg c x).
Proof.
  unfold primary_labelled. destruct (o_prim o) as [p|] eqn:Ep; [|cbn [Rsat]; split; [done|done]]. destruct (cs_prim _ _ _ Hs p Ep) as [Hl Hf]. rewrite Forall_forall in Hf.
  apply Rsat_bind. eapply Rsat_mono; [apply (loopR_sat B (fun i _ => forall j x, j < i -> p !! j = Some x -> ~ unlabelled cfg c x) (fun _ => exists j x, j < o_len_prim o /\ p !! j = Some x /\ unlabelled cfg c x))|].
  - lia.
  - intros i [] Hi HI. destruct (lookup_lt_is_Some_2 p i) as [x Hx]; [lia|]. rewrite (lget_ok _ _ x) by done. cbn [Rbind].
    assert (x < n) as Hxn. { apply Hf. apply elem_of_list_lookup. exists i. rewrite lookup_take by lia. done. }
    destruct (written_get x Hxn) as (z & -> & _ & Hz). cbn [Rbind]. case_decide as Hna; cbn [Rsat].
    + exists i, x. splits; [lia|done|]. unfold unlabelled. by rewrite Hz, Hna.
    + intros j y Hj Hy. destruct (decide (j = i)) as [->|]; [|apply (HI j); [lia|done]]. rewrite Hx in Hy. injection Hy as <-. unfold unlabelled. rewrite Hz. congruence.
  - intros [[]|[]]; cbn [Rsat]; simpl.
    + intros H. split; [|done]. intros _ p' i x [= <-]. apply H.
    + intros (j & x & Hj & Hx & Hu). split; [done|]. intros H. by destruct (H p j x).
Qed.

Hypothesis (Hlab : forall x, x < n -> unlabelled cfg c x \/ in_cluster c x).

Lemma valid_get i : i < n -> exists z, aget (c_label c) i = Ok z /\ ((z = cl_na cfg /\ forall j, j < k -> default None (cells c !! i) <> Some (Z.of_nat j)) \/
    (exists j, j < k /\ z = Z.of_nat j /\ z <> cl_na cfg /\ cells c !! i = Some (Some (Z.of_nat j)))).
Proof.
  intros Hi. destruct (written_get i Hi) as (z & Hg & Hc & Hz). exists z. split; [done|]. pose proof (proj1 (label_cases i z Hi Hz) (Hlab i Hi)) as H.
  destruct (decide (z = cl_na cfg)) as [->|Hne].
  - left. split; [done|]. intros j Hj. rewrite Hc. simpl. intros [= E]. by apply (na_not_label cfg Hcfg j k).
  - right. destruct H as [?|H]; [done|]. exists (Z.to_nat z). rewrite Z2Nat.id by lia. splits; auto. lia.
Qed.

Definition sizes : list nat := (fun j => length (cluster c j)) <$> seq 0 k.

Lemma count_sizes_sat B b : Rsat B (count_sizes cfg c (farr b (replicate k 0))) (fun r => r = farr b sizes).
Proof.
  unfold count_sizes. apply (forR_sat0 B (fun i r => r = farr b ((fun j => length (cls (cells c) i j)) <$> seq 0 k))); [|  |auto].
  - do 3 f_equal. apply list_eq. intros j. rewrite list_lookup_fmap. destruct (decide (j < k)) as [Hj|Hj]; [by rewrite lookup_replicate_2, lookup_seq_lt by done|].
    rewrite (lookup_ge_None_2 (seq 0 k)) by (rewrite seq_length; lia). by rewrite lookup_ge_None_2 by (rewrite replicate_length; lia).
  - intros i r Hi ->. destruct (valid_get i Hi) as (z & -> & [[-> Hnone]|(j & Hj & -> & Hne & HL)]); cbn [Rbind].
    + rewrite decide_True by done. cbn [Rsat]. do 3 f_equal. apply list_fmap_ext. intros p j Hj. apply lookup_seq in Hj as [-> Hj]. rewrite cls_S, decide_False by (by apply Hnone). by rewrite app_nil_r.
    + rewrite decide_False by done. unfold label_idx. rewrite decide_True by lia. cbn [Rbind]. rewrite Nat2Z.id.
      erewrite aget_farr by (rewrite list_lookup_fmap, lookup_seq_lt by done; done). cbn [Rbind]. rewrite aset_farr by (by rewrite fmap_length, seq_length). cbn [Rsat]. do 3 f_equal.
      apply list_eq. intros j'. destruct (decide (j' < k)) as [Hj'|Hj'].
      * rewrite list_lookup_fmap, lookup_seq_lt by done. simpl. rewrite cls_S, app_length. destruct (decide (j' = j)) as [->|Hne'].
        -- rewrite list_lookup_insert by (by rewrite fmap_length, seq_length). rewrite decide_True by (by rewrite HL). simpl. done.
        -- rewrite list_lookup_insert_ne by done. rewrite decide_False by (rewrite HL; simpl; intros [= E]; lia). rewrite list_lookup_fmap, lookup_seq_lt by done. simpl. f_equal. lia.
      * rewrite !lookup_ge_None_2; [done| |]; rewrite ?insert_length, fmap_length, seq_length; lia.
Qed.

Lemma sizes_large_sat B b : Rsat B (sizes_large k (o_size o) (farr b sizes)) (fun ok => ok = true <-> forall i, i < k -> o_size o <= length (cluster c i)).
Proof.
  unfold sizes_large. apply Rsat_bind. eapply Rsat_mono; [apply (loopR_sat B (fun i _ => forall j, j < i -> o_size o <= length (cluster c j)) (fun _ => exists j, j < k /\ length (cluster c j) < o_size o))|].
  - lia.
  - intros i [] Hi HI. erewrite aget_farr by (unfold sizes; rewrite list_lookup_fmap, lookup_seq_lt by lia; done). cbn [Rbind]. case_decide; cbn [Rsat].
    + exists i. split; [lia|]. done.
    + intros j Hj. destruct (decide (j = i)) as [->|]; [simpl in *; lia|]. apply HI. lia.
  - intros [[]|[]]; cbn [Rsat]; simpl; [done|]. intros (j & Hj & H). split; [done|]. intros H'. specialize (H' j Hj). lia.
Qed.

Context (tl tcons : list nat) (Htl : o_tlabels o = Some tl) (Htc : o_tcons o = Some tcons) (H2 : 2 <= o_num_types o).
Notation nt := (o_num_types o).

Definition type_sizes (a : list (option nat)) (m : nat) : Prop := length a = nt * k /\
  forall j t, j < k -> t < nt -> a !! (j * nt + t) = Some (Some (length (of_type tl t (cls (cells c) m j)))).

Lemma idx_inj j t j' t' : t < nt -> t' < nt -> j * nt + t = j' * nt + t' -> j = j' /\ t = t'.
Proof. intros Ht Ht' E. assert (j = j') as -> by nia. lia. Qed.

Lemma type_of x : x < n -> exists t, tl !! x = Some t /\ t < nt.
Proof.
  intros Hx. destruct (cs_tlabels _ _ _ Hs tl Htl) as [Hl Hf]. destruct (lookup_lt_is_Some_2 tl x) as [t Ht]; [lia|]. exists t. split; [done|].
  rewrite Forall_forall in Hf. apply Hf, elem_of_list_lookup. exists x. rewrite lookup_take by lia. done.
Qed.

Lemma count_types_sat B b : Rsat B (count_types cfg c nt (Some tl) (farr b (replicate (nt * k) 0))) (fun r => exists a, r = Some (Arr b a) /\ type_sizes a n).
Proof.
  unfold count_types. apply (forR_sat0 B (fun i r => exists a, r = Some (Arr b a) /\ type_sizes a i)); [| |auto].
  - eexists. split; [done|]. split; [by rewrite fmap_length, replicate_length|]. intros j t Hj Ht. rewrite list_lookup_fmap, lookup_replicate_2 by nia. done.
  - intros i r Hi (a & -> & Hla & Ha). destruct (valid_get i Hi) as (z & -> & [[-> Hnone]|(j & Hj & -> & Hne & HL)]); cbn [Rbind].
    + rewrite decide_True by done. cbn [Rsat]. exists a. split; [done|]. split; [done|]. intros j t Hj Ht. rewrite cls_S, decide_False by (by apply Hnone). rewrite app_nil_r. by apply Ha.
    + rewrite decide_False by done. unfold label_idx. rewrite decide_True by lia. cbn [Rbind]. rewrite Nat2Z.id. destruct (type_of i Hi) as (t & Ht & Htn). rewrite (lget_ok _ _ t) by done. cbn [Rbind].
      rewrite (aget_cells _ _ _ _ (Ha j t Hj Htn)). cbn [Rbind]. rewrite aset_cells by nia. cbn [Rsat]. eexists. split; [done|]. split; [by rewrite insert_length|]. intros j' t' Hj' Ht'.
      rewrite cls_S. destruct (decide (j' = j)) as [->|Hjj].
      * rewrite decide_True by (by rewrite HL). rewrite of_type_snoc, app_length. destruct (decide (t' = t)) as [->|Htt].
        -- rewrite list_lookup_insert by nia. rewrite decide_True by done. done.
        -- rewrite list_lookup_insert_ne by (intros E; apply idx_inj in E as [_ E]; congruence). rewrite decide_False by congruence. simpl. rewrite Nat.add_0_r. by apply Ha.
      * rewrite decide_False by (rewrite HL; simpl; intros [= E]; lia). rewrite app_nil_r. rewrite list_lookup_insert_ne by (intros E; apply idx_inj in E as [E _]; congruence). by apply Ha.
Qed.

Lemma types_large_sat B b a : type_sizes a n -> Rsat B (types_large k nt (o_size o) (Some tcons) (Some (Arr b a))) (fun ok => ok = true <->
  forall i, i < k -> o_size o <= length (cluster c i) /\ forall t m, t < nt -> tcons !! t = Some m -> m <= length (of_type tl t (cluster c i))).
Proof.
  intros [Hla Ha]. unfold types_large. pose proof (cs_tcons _ _ _ Hs tcons Htc) as Hlt.
  set (good i := o_size o <= length (cluster c i) /\ forall t m, t < nt -> tcons !! t = Some m -> m <= length (of_type tl t (cluster c i))).
  assert (forall r B', Rsat B' r (fun x : unit + unit => match x with inl _ => forall i, i < k -> good i | inr _ => exists i, i < k /\ ~ good i end) ->
    Rsat B' (let! x := r in Ok (match x with inl _ => true | inr _ => false end)) (fun ok => ok = true <-> forall i, i < k -> good i)) as Hfin.
  { intros r B' H. apply Rsat_bind. eapply Rsat_mono; [exact H|]. intros [[]|[]]; cbn [Rsat]; [done|]. intros (i & Hi & Hn). split; [done|]. intros Hall. by destruct Hn; apply Hall. }
  apply Hfin. apply (loopR_sat B (fun i _ => forall j, j < i -> good j) (fun _ => exists i, i < k /\ ~ good i)); [lia|].
  intros i [] Hi HI. apply Rsat_bind. assert (i < k) as Hik by lia.
  assert (length (concat ((fun t => of_type tl t (cluster c i)) <$> seq 0 nt)) = length (cluster c i)) as Htot.
  { apply of_type_total. apply Forall_forall. intros x Hx. apply elem_of_list_filter in Hx as [_ Hx]. apply elem_of_seq in Hx. apply type_of. lia. }
  eapply Rsat_mono; [apply (loopR_sat B (fun t total => total = length (concat ((fun t => of_type tl t (cluster c i)) <$> seq 0 t)) /\
    forall t' m, t' < t -> tcons !! t' = Some m -> m <= length (of_type tl t' (cluster c i))) (fun _ => exists i, i < k /\ ~ good i))|].
  - split; [done|lia].
  - intros t total Ht [-> Hall]. rewrite (aget_cells _ _ _ _ (Ha i t Hik ltac:(lia))). cbn [Rbind]. destruct (lookup_lt_is_Some_2 tcons t) as [m Hm]; [lia|]. rewrite (lget_ok _ _ m) by done. cbn [Rbind].
    case_decide as Hlt'; cbn [Rsat].
    + exists i. split; [done|]. intros [_ Hg]. specialize (Hg t m ltac:(lia) Hm). change (cluster c i) with (cls (cells c) n i) in Hg. lia.
    + split; [rewrite seq_S, fmap_app, concat_app, app_length; simpl; by rewrite app_nil_r|]. intros t' m' Ht' Hm'. destruct (decide (t' = t)) as [->|]; [|apply Hall; [lia|done]].
      rewrite Hm in Hm'. injection Hm' as <-. change (cluster c i) with (cls (cells c) n i). lia.
  - intros [total|[]]; cbn [Rsat]; [|auto]. intros [-> Hall]. rewrite Nat.add_0_l in *. rewrite Htot. case_decide as Hsz; cbn [Rsat].
    + exists i. split; [done|]. intros [Hg _]. lia.
    + intros j Hj. destruct (decide (j = i)) as [->|]; [|apply HI; lia]. split; [lia|]. intros t m Ht Hm. by apply Hall.
Qed.
End Check.

(** Requirements of a call. *)
Record check_call (cfg : config) (c : clustering) (o : options) : Prop := {
  ch_cfg : config_ok cfg;
  ch_init : is_initialized_clustering cfg (Some c) = true;
  ch_some : c_k c <> 0;
  ch_written : all_written c;
  ch_read : prim_readable o;
  ch_sane : options_valid o (c_n c) -> check_sane o (c_n c) (c_k c)
}.

Lemma initialized_k cfg c : is_initialized_clustering cfg (Some c) = true -> (N.of_nat (c_k c) <= cl_max cfg)%N.
Proof.
  unfold is_initialized_clustering. destruct (decide (c_version c <> clustering_version)); [done|]. destruct (decide (c_n c = 0)); [done|].
  destruct (pi_max cfg <? N.of_nat (c_n c))%N; [done|]. destruct (N.ltb_spec (cl_max cfg) (N.of_nat (c_k c))); [done|auto].
Qed.

Lemma Msat_check cfg c o w : check_call cfg c o ->
  Msat none (check_clustering cfg (Some c) (Some o) true) w (fun '(ec, out) w' => wle w w' /\ own w' [] w /\
    ((ec = ER_OK /\ options_valid o (c_n c) /\ w_err w' = w_err w /\ exists b, out = Some b /\ (b = true <-> passes cfg c o)) \/
     (ec <> ER_OK /\ out = Some false /\ e_code (w_err w') = ec /\ ((~ options_valid o (c_n c) /\ options_error o (c_n c) ec) \/ (ec = ER_NO_MEMORY /\ ~ no_fail w))))).
Proof.
  intros [Hcfg Hi Hk Hw Hr Hsane]. unfold check_clustering. cbn [negb]. rewrite Hi. cbn [negb]. rewrite decide_False by done. pose proof (initialized_k _ _ Hi) as Hkm.
  apply Msat_bind. eapply Msat_mono; [by apply Msat_check_options|]. intros ec w1 (L1 & O1 & H1). case_decide as Hec.
  { apply Msat_ret. splits; auto. right. splits; auto; [tauto|]. left. tauto. }
  assert (ec = ER_OK) as -> by (destruct (decide (ec = ER_OK)); tauto). destruct H1 as [(_ & E1 & Hv)|(? & _)]; [|done]. specialize (Hsane Hv). clear Hec.
  apply Msat_bind, Msat_lift. eapply Rsat_mono; [by apply labels_in_range_sat|]. intros ok Hok. destruct ok; cbn [negb].
  2:{ apply Msat_ret. splits; auto. left. splits; auto. exists false. split; [done|]. split; [done|]. intros []. by apply Hok. }
  apply Msat_bind, Msat_lift. eapply Rsat_mono; [by eapply primary_labelled_sat|]. intros ok Hok2. destruct ok; cbn [negb].
  2:{ apply Msat_ret. splits; auto. left. splits; auto. exists false. split; [done|]. split; [done|]. intros []. by apply Hok2. }
  assert (forall x, x < c_n c -> unlabelled cfg c x \/ in_cluster c x) as Hlab by (by apply Hok). destruct Hok2 as [Hprim _]. specialize (Hprim eq_refl).
  case_decide as Hnt.
  - apply Msat_bind. eapply Msat_mono; [apply Msat_calloc_any|]. intros a w2 (L2 & O2 & E2 & F2 & S2). destruct a as [a|].
    2:{ apply Msat_bind, Msat_make_error__. intros w3 L3 O3 E3 _. apply Msat_ret. splits; [wl|blk|]. right. splits; auto; [by rewrite E3|]. right. split; [done|]. intros HF. apply F2; [done|]. by eapply no_fail_wle. }
    destruct (S2 _ eq_refl) as [b ->]. rewrite replicate_farr.
    apply Msat_bind, Msat_lift. eapply Rsat_mono; [by apply count_sizes_sat|]. intros r ->. apply Msat_bind, Msat_lift. eapply Rsat_mono; [apply sizes_large_sat with (cfg := cfg); done|]. intros ok Hsz.
    apply Msat_bind, Msat_free_arr; [blk|]. intros w3 L3 C3 E3 _. apply Msat_ret. splits; [wl|blk|]. left. splits; auto; [congruence|]. exists ok. split; [done|]. rewrite Hsz. split; [|by intros []].
    intros H. constructor; auto. intros. lia.
  - destruct (ov_typed _ _ Hv) as (_ & [tcons Htc] & _ & [tl Htl]); [lia|]. rewrite Htc, Htl. rewrite wrapN_small by (apply Hsane; lia).
    apply Msat_bind. eapply Msat_mono; [apply Msat_calloc_any|]. intros a w2 (L2 & O2 & E2 & F2 & S2). destruct a as [a|].
    2:{ apply Msat_bind, Msat_make_error__. intros w3 L3 O3 E3 _. apply Msat_ret. splits; [wl|blk|]. right. splits; auto; [by rewrite E3|]. right. split; [done|]. intros HF. apply F2; [done|]. by eapply no_fail_wle. }
    destruct (S2 _ eq_refl) as [b ->]. rewrite replicate_farr.
    apply Msat_bind, Msat_lift. eapply Rsat_mono; [eapply count_types_sat; eauto; lia|]. intros r (a & -> & Ha). apply Msat_bind, Msat_lift. eapply Rsat_mono; [eapply types_large_sat; eauto; lia|]. intros ok Hsz.
    apply Msat_bind, Msat_free_arr; [blk|]. intros w3 L3 C3 E3 _. apply Msat_ret. splits; [wl|blk|]. left. splits; auto; [congruence|]. exists ok. split; [done|]. rewrite Hsz. split.
    + intros H. constructor; auto; [intros i Hii; by apply H|]. intros _ i t m Hii Ht Hm. unfold tcons_of, tlabels_of in *. rewrite Htc in Hm. rewrite Htl. by apply H.
    + intros [_ _ H1 H2] i Hii. split; [by apply H1|]. intros t m Ht Hm. specialize (H2 ltac:(lia) i t m Hii Ht). unfold tcons_of, tlabels_of in *. rewrite Htc, Htl in H2. by apply H2.
Qed.
