(** The assignment stages of src/nng_core.c compute what AssignSpec says. *)

From stdpp Require Import prelude list sorting.
From Coq Require Import NArith ZArith.
From Verif Require Import Base World Mem Digraph DigraphRep DigraphOps DigraphDiff Float Spi Options Arrays GraphSpec SeedSpec AssignSpec Seeds SeedsProof SeedsExcl Nng NngGraph NngSize.

(** Encoding of labels. *)
Definition enc (cfg : config) (o : option nat) : Z :=
  match o with None => cl_na cfg | Some i => Z.of_nat i end.

(** All labels are below [k]. *)
Definition labels_lt (k : nat) (L : labels) : Prop := forall x i, lab L x = Some i -> i < k.

Section Assign.
Context (cfg : config) (Hcfg : config_ok cfg).
Notation dg_rep := (dg_rep cfg).
Notation enc := (enc cfg).

Lemma enc_na k o : (N.of_nat k <= cl_max cfg)%N -> (forall i, o = Some i -> i < k) -> enc o = cl_na cfg <-> o = None.
Proof.
  intros Hk Ho. destruct o as [i|]; simpl; [|done]. split; [|done]. intros E. exfalso. specialize (Ho i eq_refl).
  destruct Hcfg as (_ & _ & Hc & _). unfold u32max, u64max, i32max in *.
  destruct Hc as [[H1 H2]|[[H1 H2]|[H1 [H2|H2]]]]; lia.
Qed.

(** ** Seeds and their neighbours *)

(** The closed neighbourhoods of the seeds are disjoint sets of points. *)
Record groups_ok (n : nat) (g : list (list nat)) (ss : list nat) : Prop := {
  gr_lt : forall s x, s ∈ ss -> x ∈ closed g s -> x < n;
  gr_nodup : forall s, s ∈ ss -> NoDup (closed g s);
  gr_disj : forall i j s t, ss !! i = Some s -> ss !! j = Some t -> i <> j ->
     forall u, u ∈ closed g s -> u ∈ closed g t -> False
}.

Lemma groups_ok_intro dg g ss : dg_rep dg g -> Forall (@NoDup nat) g -> (forall v, v ∉ adj g v) -> independent_maximal g ss ->
  groups_ok (length g) g ss.
Proof.
  intros H Hnd Hself (H1 & H2 & _). rewrite Forall_forall in H1. constructor; [| |done].
  - intros s x Hs Hx. unfold closed in Hx. apply elem_of_cons in Hx as [-> |Hx]; [by apply H1|]. by eapply adj_head_lt.
  - intros s Hs. constructor; [apply Hself|]. unfold adj. destruct (g !! s) as [r|] eqn:E; [|constructor]. simpl.
    by eapply Forall_lookup_1 in Hnd.
Qed.

Lemma groups_concat n g ss : groups_ok n g ss ->
  NoDup (concat (closed g <$> ss)) /\ forall x, x ∈ concat (closed g <$> ss) <-> covered g ss x.
Proof.
  intros [_ Hn Hd]. split.
  - induction ss as [|s ss IH]; [constructor|]. change (concat (closed g <$> s :: ss)) with (closed g s ++ concat (closed g <$> ss)).
    apply NoDup_app. splits.
    + apply Hn. set_solver.
    + intros x Hx Hc. apply elem_of_concat in Hc as (l & Hl & Hin). apply elem_of_list_fmap in Hin as (t & -> & Ht).
      apply elem_of_list_lookup in Ht as [j Hj]. eapply (Hd 0 (S j)); eauto.
    + apply IH; [intros t Ht; apply Hn; set_solver|]. intros i j a b Hi Hj Hij. apply (Hd (S i) (S j)); auto.
  - intros x. rewrite elem_of_concat. unfold covered. setoid_rewrite elem_of_list_fmap. naive_solver.
Qed.

(** Number of assigned points. *)
Definition nassigned (L : labels) : nat := length (filter (fun o => o <> None) L).

Lemma nassigned_seq L : nassigned L = length (filter (assigned L) (seq 0 (length L))).
Proof.
  unfold nassigned. assert (forall pre, length (filter (fun o => o <> None) L) = length (filter (assigned (pre ++ L)) (seq (length pre) (length L)))) as H.
  { induction L as [|o L IH]; intros pre; [done|]. change (length (o :: L)) with (S (length L)). rewrite <- cons_seq. rewrite !filter_cons.
    specialize (IH (pre ++ [o])). rewrite app_length, <- app_assoc in IH. simpl in IH. rewrite Nat.add_1_r in IH.
    assert (lab (pre ++ o :: L) (length pre) = o) as Ho by (unfold lab; by rewrite list_lookup_middle).
    assert (assigned (pre ++ o :: L) (length pre) <-> o <> None) as Ha by (unfold assigned; by rewrite Ho).
    destruct (decide (o <> None)), (decide (assigned (pre ++ o :: L) (length pre))); simpl; try tauto; try (f_equal; exact IH); exact IH. }
  apply (H []).
Qed.

Lemma nassigned_le L : nassigned L <= length L.
Proof. apply filter_length. Qed.

Lemma unassigned_count L : length (filter (fun x => ~ assigned L x) (seq 0 (length L))) = length L - nassigned L.
Proof.
  rewrite nassigned_seq. generalize (seq_length (length L) 0). generalize (seq 0 (length L)). intros l Hl. rewrite <- Hl. clear Hl.
  induction l as [|x l IH]; [done|]. rewrite !filter_cons. pose proof (filter_length (assigned L) l).
  destruct (decide (assigned L x)), (decide (~ assigned L x)); simpl in *; try tauto; lia.
Qed.

Lemma filter_count_le (P : nat -> Prop) `{!forall x, Decision (P x)} T m : NoDup T -> Forall (fun x => x < m) T ->
  length (filter P T) <= length (filter P (seq 0 m)).
Proof.
  intros Hn Hl. apply submseteq_length, NoDup_submseteq; [by apply NoDup_filter|]. intros x Hx.
  apply elem_of_list_filter in Hx as [Hp Hx]. apply elem_of_list_filter. split; [done|]. rewrite Forall_forall in Hl.
  apply elem_of_seq. specialize (Hl x Hx). lia.
Qed.

Lemma nassigned_all L : nassigned L = length L -> forall x, x < length L -> assigned L x.
Proof.
  intros H x Hx. pose proof (unassigned_count L) as Hu. rewrite H, Nat.sub_diag in Hu. apply nil_length_inv in Hu.
  destruct (decide (assigned L x)) as [|Hn]; [done|]. exfalso.
  assert (x ∈ filter (fun x => ~ assigned L x) (seq 0 (length L))) as Hin.
  { apply elem_of_list_filter. split; [done|]. apply elem_of_seq. lia. }
  rewrite Hu in Hin. by apply elem_of_nil in Hin.
Qed.

Lemma foldR_set B b (z : Z) r : forall L, Forall (fun x => x < length L) r ->
  Rsat B (foldR (fun x lab => aset lab x z) (farr b L) r) (fun o => exists L', o = farr b L' /\ length L' = length L /\
    forall y, L' !! y = if decide (y ∈ r) then Some z else L !! y).
Proof.
  induction r as [|x r IH]; intros L Hl.
  - simpl. exists L. splits; auto.
  - inversion_clear Hl as [|? ? Hx Hr]. simpl. rewrite aset_farr by done. cbn [Rbind].
    eapply Rsat_mono; [apply IH; by rewrite insert_length|]. intros o (L' & -> & HL & Hy). exists L'. rewrite insert_length in HL.
    splits; auto. intros y. rewrite Hy. destruct (decide (y ∈ r)) as [Hin|Hin].
    + rewrite decide_True by set_solver. done.
    + destruct (decide (y = x)) as [->|Hne].
      * rewrite decide_True by set_solver. by apply list_lookup_insert.
      * rewrite decide_False by set_solver. by apply list_lookup_insert_ne.
Qed.

Lemma seed_labels_lt g ss n : labels_lt (length ss) (seed_labels g ss n).
Proof.
  intros x i H. pose proof (lab_lt _ _ _ H) as Hx. rewrite seed_labels_length in Hx. rewrite seed_labels_lab in H by done.
  apply seed_label_Some in H as (s & Hs & _). by eapply lookup_lt_Some.
Qed.

Lemma assign_seeds_sat B cl b c0 sr ss sb dg g n :
  dg_rep dg g -> length g = n -> c_n cl = n -> c_label cl = Some (Arr b c0) -> length c0 = n ->
  seed_st cfg sr ss sb -> groups_ok n g ss ->
  Rsat B (assign_seeds_and_neighbors cfg cl sr dg) (fun '(cl', num) =>
    cl' = Clu (c_version cl) n (length ss) (farr b (enc <$> seed_labels g ss n)) (c_ext cl) /\
    num = nassigned (seed_labels g ss n)).
Proof.
  intros H Hg Hn Hl Hc0 (sc & Es & Hsf & Hcnt & _ & Hcl) Hgr. unfold assign_seeds_and_neighbors. simpl. rewrite Hn, Hl.
  apply Rsat_bind. apply (forR_sat0 B (fun i o => exists c, o = Some (Arr b c) /\ length c = n /\ filled c (replicate i (cl_na cfg)))).
  { exists c0. splits; auto. apply filled_nil. }
  { intros i o Hi (c & -> & Hlc & Hf). rewrite aset_cells by lia. cbn [Rbind Rsat]. eexists. split; [done|]. rewrite insert_length. split; [done|].
    rewrite replicate_S_end. pose proof (filled_snoc c _ (cl_na cfg) Hf) as Hs. rewrite replicate_length in Hs. apply Hs. lia. }
  intros o (c & -> & Hlc & Hf). apply filled_full in Hf; [|by rewrite replicate_length]. subst c.
  apply Rsat_bind.
  set (I := fun i '((o, num) : option (arr Z) * nat) => o = farr b (enc <$> seed_labels g (take i ss) n) /\
    num = length (concat (closed g <$> take i ss))).
  apply (forR_sat0 B I).
  - split; [|by rewrite take_0]. do 2 f_equal. f_equal. rewrite take_0. apply list_eq. intros i. unfold seed_labels.
    rewrite !list_lookup_fmap. destruct (decide (i < n)) as [Hi|Hi].
    + rewrite lookup_seq_lt by done. simpl. by apply lookup_replicate_2.
    + rewrite lookup_seq_ge by lia. simpl. rewrite lookup_ge_None_2; [done|]. rewrite replicate_length. lia.
  - intros i [o num] Hi (-> & ->). destruct (lookup_lt_is_Some_2 ss i) as [s Hs]; [lia|].
    assert (s ∈ ss) as Hin by (by eapply elem_of_list_lookup_2).
    assert (s < n) as Hsn by (eapply (gr_lt _ _ _ Hgr s s Hin); unfold closed; set_solver).
    rewrite Es. rewrite (aget_cells _ _ _ s) by (by eapply filled_lookup). cbn [Rbind].
    destruct (lookup_lt_is_Some_2 g s) as [r Hr]; [lia|]. rewrite (for_arcs_fold cfg _ _ _ r _ _ H Hr).
    assert (adj g s = r) as Har by (unfold adj; by rewrite Hr).
    assert (forall x, x ∈ closed g s -> seed_label g (take i ss) x = None) as Hfresh.
    { intros x Hx. apply seed_label_None. intros (t & Ht & Hxt). apply elem_of_list_lookup in Ht as [j Hj].
      apply lookup_take_Some in Hj as [Hj Hji]. eapply (gr_disj _ _ _ Hgr i j); eauto. lia. }
    assert (NoDup (s :: r)) as Hnd. { rewrite <- Har. by apply (gr_nodup _ _ _ Hgr). } inversion_clear Hnd as [|? ? Hsr Hndr].
    apply Rsat_bind. eapply Rsat_mono.
    { apply foldR_set. rewrite fmap_length, seed_labels_length. apply Forall_forall. intros x Hx. apply (gr_lt _ _ _ Hgr s x Hin).
      unfold closed. rewrite Har. set_solver. }
    intros o (L' & -> & HL' & HL). rewrite fmap_length, seed_labels_length in HL'.
    rewrite (rep_tail_get cfg _ _ s H), (rep_tail_get cfg _ _ (s + 1) H) by lia. cbn [Rbind].
    rewrite Nat.add_1_r, (offs_S _ _ _ Hr).
    assert (L' !! s = Some (cl_na cfg)) as Hls.
    { rewrite HL, decide_False by done. rewrite list_lookup_fmap, lab_lookup by (by rewrite seed_labels_length).
      rewrite seed_labels_lab by done. rewrite Hfresh by (unfold closed; set_solver). done. }
    rewrite (aget_farr _ _ _ _ Hls). cbn [Rbind]. rewrite decide_True by done. rewrite aset_farr by lia. cbn [Rbind]. split.
    + do 2 f_equal. f_equal. apply list_eq. intros y. rewrite (take_S_r _ _ _ Hs). destruct (decide (y < n)) as [Hy|Hy].
      2:{ rewrite lookup_ge_None_2 by (rewrite insert_length; lia). rewrite lookup_ge_None_2; [done|]. rewrite fmap_length, seed_labels_length. lia. }
      rewrite list_lookup_fmap. rewrite (lab_lookup (seed_labels _ _ _)) by (by rewrite seed_labels_length). rewrite seed_labels_lab by done.
      rewrite seed_label_app. simpl. rewrite take_length, Nat.min_l by lia.
      destruct (decide (y ∈ closed g s)) as [Hyc|Hyc].
      * rewrite Hfresh by done. unfold closed in Hyc. rewrite Har in Hyc. apply elem_of_cons in Hyc as [-> |Hyr].
        -- rewrite list_lookup_insert by lia. done.
        -- rewrite list_lookup_insert_ne by (intros ->; done). rewrite HL, decide_True by done. done.
      * assert (y <> s /\ y ∉ r) as [Hys Hyr]. { unfold closed in Hyc. rewrite Har in Hyc. set_solver. }
        rewrite list_lookup_insert_ne by done. rewrite HL, decide_False by done.
        rewrite list_lookup_fmap. rewrite (lab_lookup (seed_labels _ _ _)) by (by rewrite seed_labels_length). rewrite seed_labels_lab by done. simpl.
        by destruct (seed_label g (take i ss) y).
    + rewrite (take_S_r _ _ _ Hs), fmap_app, concat_app, app_length. simpl. rewrite app_nil_r, Har. lia.
  - intros [o num] (-> & ->). simpl. rewrite Hcnt, firstn_all. unfold set_label, set_k. simpl. split; [by rewrite Hn|].
    destruct (groups_concat _ _ _ Hgr) as [Hnd Hcov]. rewrite nassigned_seq, seed_labels_length. apply Permutation_length.
    apply NoDup_Permutation; [done|apply NoDup_filter, NoDup_seq|]. intros x. rewrite Hcov, elem_of_list_filter, elem_of_seq. unfold assigned. split.
    + intros Hx. assert (x < n) as Hxn. { destruct Hx as (s & Hs & Hx). by eapply (gr_lt _ _ _ Hgr). } split; [|lia].
      rewrite seed_labels_lab by done. rewrite seed_label_None. tauto.
    + intros [Hx Hxn]. rewrite seed_labels_lab in Hx by lia. rewrite seed_label_None in Hx. by apply dec_stable.
Qed.

(** ** Assignment along arcs *)

Lemma aget_enc b L i : i < length L -> aget (farr b (enc <$> L)) i = Ok (enc (lab L i)).
Proof. intros H. apply aget_farr. by rewrite list_lookup_fmap, lab_lookup. Qed.

Lemma nassigned_app L1 L2 : nassigned (L1 ++ L2) = nassigned L1 + nassigned L2.
Proof. unfold nassigned. by rewrite filter_app, app_length. Qed.

Lemma Msat_assign_by_nng B cl b L k dg g n w :
  dg_rep dg g -> length g = n -> c_n cl = n -> length L = n -> c_label cl = farr b (enc <$> L) ->
  labels_lt k L -> (N.of_nat k <= cl_max cfg)%N ->
  Msat B (assign_by_nng cfg cl dg) w (fun '(cl', num) w' =>
    wle w w' /\ own w' [] w /\
    ((cl' = set_label cl (farr b (enc <$> by_neighbors g L)) /\ w_err w' = w_err w /\
      nassigned (by_neighbors g L) = nassigned L + num) \/
     (cl' = cl /\ ~ no_fail w /\ num = 3))).
Proof.
  intros H Hg Hn HL Hl Hlt Hk. unfold assign_by_nng. apply Msat_bind, Msat_malloc_arr.
  { intros w1 L1 O1 E1 T1 F1. apply Msat_bind, Msat_make_error__. intros w2 L2 O2 E2 T2. apply Msat_ret.
    split; [eauto|]. split; [blk|]. right. done. }
  intros w1 sb L1 O1 E1 T1.
  assert (forall x, enc (lab L x) = cl_na cfg <-> lab L x = None) as Hna by (intros x; apply (enc_na k); [done|apply Hlt]).
  apply Msat_bind, Msat_lift. rewrite Hn, Hl.
  apply (forR_sat0 B (fun i o => exists c, o = Some (Arr sb c) /\ length c = n /\ filled c ((fun x => bool_decide (~ assigned L x)) <$> seq 0 i))).
  { exists (fresh bool n). splits; auto; [by unfold fresh; rewrite replicate_length|apply filled_nil]. }
  { intros i o Hi (c & -> & Hlc & Hf). rewrite aget_enc by lia. cbn [Rbind]. rewrite aset_cells by lia. cbn [Rbind Rsat]. eexists. split; [done|].
    rewrite insert_length. split; [done|]. rewrite seq_S, fmap_app. simpl.
    replace (bool_decide (enc (lab L i) = cl_na cfg)) with (bool_decide (~ assigned L i)).
    - pose proof (filled_snoc c _ (bool_decide (~ assigned L i)) Hf) as Hs. rewrite fmap_length, seq_length in Hs. apply Hs. lia.
    - apply bool_decide_ext. unfold assigned. rewrite Hna. split; [apply dec_stable|tauto]. }
  intros o (c & -> & Hlc & Hf). apply filled_full in Hf; [|by rewrite fmap_length, seq_length].
  assert (forall x, x < n -> aget (Some (Arr sb c)) x = Ok (bool_decide (~ assigned L x))) as Hsc.
  { intros x Hx. subst c. apply aget_farr. by rewrite list_lookup_fmap, lookup_seq_lt. }
  clear Hf. set (L' := by_neighbors g L). assert (length L' = n) as HL' by (unfold L'; by rewrite by_neighbors_length).
  apply Msat_bind, Msat_lift.
  apply (forR_sat0 B (fun i '(o, num) => o = farr b (enc <$> (take i L' ++ drop i L)) /\ nassigned (take i L') = nassigned (take i L) + num)).
  - by rewrite !take_0.
  - intros i [o num] Hi (-> & Hnum). rewrite Hsc by done. cbn [Rbind].
    pose proof (lab_lookup L i ltac:(lia)) as Hli. pose proof (lab_lookup L' i ltac:(lia)) as Hli'.
    pose proof (by_neighbors_lab g L i ltac:(lia)) as Hbn. fold L' in Hbn.
    rewrite (take_S_r _ _ _ Hli), (take_S_r _ _ _ Hli'). rewrite !nassigned_app. rewrite (drop_S _ _ _ Hli).
    rewrite <- app_assoc. simpl.
    case_bool_decide as Ha.
    + assert (lab L i = None) as HaN by (unfold assigned in Ha; by apply dec_stable). rewrite HaN in Hbn.
      destruct (lookup_lt_is_Some_2 g i) as [r Hr]; [lia|]. rewrite (loop_arcs_fold cfg _ _ _ r _ _ H Hr).
      assert (adj g i = r) as Har by (unfold adj; by rewrite Hr).
      apply Rsat_bind. eapply Rsat_mono.
      { apply (foldXR_sat B (fun pre (_ : unit) => Forall (fun y => ~ assigned L y) pre) (fun x => x ∈ r /\ assigned L x /\ lab L' i = lab L x)).
        - constructor.
        - intros pre x post [] Hrr Hpre. assert (x ∈ r) as Hxr by (rewrite Hrr; set_solver).
          assert (x < n) as Hxn by (rewrite <- Hg; eapply rep_lookup_lt; eauto).
          rewrite Hsc by done. cbn [Rbind]. case_bool_decide as Hax; simpl.
          + apply Forall_app. split; [done|]. by constructor.
          + assert (assigned L x) as Hax' by (destruct (decide (assigned L x)); tauto). splits; auto. rewrite Hbn. unfold neighbor_label. rewrite Har, Hrr.
            assert (list_find (assigned L) pre = None) as Hp by (by apply list_find_None).
            rewrite list_find_app_r by done. cbn [list_find]. rewrite decide_True by done. done. }
      intros [[]|x]; simpl.
      * intros Hall. split.
        -- assert (neighbor_label g L i = None) as Hnl by (apply neighbor_label_None; by rewrite Har). by rewrite Hbn, HaN, Hnl.
        -- assert (lab L' i = None) as -> by (rewrite Hbn; apply neighbor_label_None; by rewrite Har). rewrite HaN. unfold nassigned at 2 4. simpl. lia.
      * intros (Hx & Hax & Hlx). assert (x < n) as Hxn by (rewrite <- Hg; eapply rep_lookup_lt; eauto).
        assert ((take i L' ++ None :: drop (S i) L) !! x = Some (lab L x)) as Hgx.
        { destruct (decide (x < i)) as [Hxi|Hxi].
          - rewrite lookup_app_l by (rewrite take_length; lia). rewrite lookup_take by done. rewrite lab_lookup by lia. f_equal.
            unfold L'. rewrite by_neighbors_lab by lia. unfold assigned in Hax. by destruct (lab L x).
          - rewrite lookup_app_r by (rewrite take_length; lia). rewrite take_length, Nat.min_l by lia.
            destruct (decide (x = i)) as [->|]; [by unfold assigned in *; rewrite HaN in *|].
            replace (x - i) with (S (x - i - 1)) by lia. simpl. rewrite lookup_drop. replace (S i + (x - i - 1)) with x by lia.
            apply lab_lookup. lia. }
        rewrite HaN. rewrite (aget_farr _ _ _ (enc (lab L x))) by (by rewrite list_lookup_fmap, Hgx). cbn [Rbind].
        rewrite aset_farr by (rewrite fmap_length, app_length, take_length; simpl; rewrite drop_length; lia). cbn [Rbind]. split.
        -- do 2 f_equal. f_equal. rewrite <- list_fmap_insert. f_equal.
           rewrite <- (Nat.add_0_r i) at 1. rewrite <- (take_length_le L' i) at 1 by lia. rewrite insert_app_r. simpl. by rewrite Hlx.
        -- unfold nassigned at 2 4. simpl. rewrite Hlx. unfold assigned in Hax. destruct (lab L x); [|done]. simpl. lia.
    + assert (lab L' i = lab L i) as Heq. { rewrite Hbn. unfold assigned in Ha. destruct (lab L i); [done|]. tauto. }
      rewrite Heq. split; [done|]. lia.
  - intros [o num] (-> & Hnum). rewrite (take_ge L'), (drop_ge L), app_nil_r in * by lia. rewrite (take_ge L) in Hnum by lia.
    apply Msat_bind, Msat_free_arr; [blk|]. intros w2 L2 C2 E2 T2. apply Msat_ret. simpl. splits; eauto; [blk|]. left. splits; auto. congruence.
Qed.

(** ** Collecting unassigned points *)

Lemma collect_unassigned_sat B b L k len (h : nat -> R nat) T tb c :
  length T = len -> (forall i x, T !! i = Some x -> h i = Ok x) -> Forall (fun x => x < length L) T ->
  labels_lt k L -> (N.of_nat k <= cl_max cfg)%N ->
  length (filter (fun x => ~ assigned L x) T) < length c \/ B Oob ->
  Rsat B (collect_unassigned cfg (farr b (enc <$> L)) len h (Some (Arr tb c))) (fun '(ta, num) =>
    num = length (filter (fun x => ~ assigned L x) T) /\
    exists c', ta = Some (Arr tb c') /\ length c' = length c /\ filled c' (filter (fun x => ~ assigned L x) T)).
Proof.
  intros HT Hh HltT Hlt Hk HB.
  assert (forall x, enc (lab L x) = cl_na cfg <-> lab L x = None) as Hna by (intros x; apply (enc_na k); [done|apply Hlt]).
  unfold collect_unassigned.
  apply (forR_sat0 B (fun i '(ta, num) => num = length (filter (fun x => ~ assigned L x) (take i T)) /\
    exists c', ta = Some (Arr tb c') /\ length c' = length c /\ filled c' (filter (fun x => ~ assigned L x) (take i T)))).
  - rewrite take_0. split; [done|]. exists c. splits; auto. apply filled_nil.
  - intros i [ta num] Hi (-> & c' & -> & Hlc & Hf). destruct (lookup_lt_is_Some_2 T i) as [x Hx]; [lia|].
    assert (x < length L) as HxL by (eapply Forall_lookup_1 in HltT; [|exact Hx]; done).
    rewrite (Hh _ _ Hx). cbn [Rbind]. set (m := length (filter (fun x => ~ assigned L x) (take i T))) in *.
    destruct (decide (m < length c')) as [Hm|Hm].
    + rewrite aset_cells by done. cbn [Rbind]. rewrite aget_enc by done. cbn [Rbind]. simpl.
      rewrite (take_S_r _ _ _ Hx), filter_app, filter_cons. unfold assigned in *.
      destruct (decide (enc (lab L x) = cl_na cfg)) as [Hxn|Hxn].
      * apply Hna in Hxn. rewrite decide_True by (rewrite Hxn; tauto). rewrite app_length. split; [simpl; lia|].
        eexists. split; [done|]. rewrite insert_length. split; [done|]. by apply filled_snoc'.
      * assert (lab L x <> None) as Hxs by (by rewrite <- Hna). rewrite decide_False by tauto. rewrite app_nil_r. split; [simpl; lia|].
        eexists. split; [done|]. rewrite insert_length. split; [done|]. destruct Hf as [rest ->].
        fold m in Hm |- *. exists (<[0 := Some x]> rest). unfold m. rewrite <- (Nat.add_0_r (length _)).
        rewrite <- (fmap_length Some). by rewrite insert_app_r.
    + destruct HB as [HB|HB].
      * exfalso. apply Hm. eapply Nat.le_lt_trans; [|rewrite Hlc; exact HB]. unfold m. rewrite <- (take_drop i T) at 2.
        rewrite filter_app, app_length. lia.
      * unfold aset, cset. simpl. rewrite decide_False by done. done.
  - intros [ta num]. rewrite <- HT, firstn_all. auto.
Qed.
End Assign.
