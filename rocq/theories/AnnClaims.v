(** Claims about clusterings made with the ANN library, and an exact library to try
    them out. *)

From stdpp Require Import prelude list.
From Coq Require Import NArith ZArith.
From Verif Require Import Base World Mem Arrays Digraph DigraphRep Float Spi Dist DistProof Options NngStage OptionsProof Batch BatchProof NngGraph NngClustering Hier Util
  SeedSpec SeedsExcl ScSpec ClusSpec ScClaims ScClaims2 Example1 FailClaims Sim Ann AnnProof.

(** ** Single searches *)

(** A call of a search function: the caller's blocks stay, the latest error too. *)
Definition keeps (w w' : world) : Prop := wle w w' /\ w_err w' = w_err w /\ forall x, cnt x (w_live w) <= cnt x (w_live w').

Lemma simw_refl w : simw true w w.
Proof. unfold simw. splits; auto; done. Qed.
Lemma simw_same w : no_fail w -> simw false w w.
Proof. intros H. unfold simw. split; [done|]. split; [done|]. split; [done|]. split; [done|]. split; auto. Qed.

(** The number of open search objects the wrapper counts. *)
Definition tickM {A} (m : M A) : Prop := forall w a w', m w = Ok (a, w') -> w_tick w' = w_tick w.
Lemma tk_ret {A} (a : A) : tickM (Mret a).
Proof. by intros w a' w' [= <- <-]. Qed.
Lemma tk_lift {A} (m : R A) : tickM (lift m).
Proof. intros w a w' E. unfold lift in E. destruct m; [|done]. by injection E as <- <-. Qed.
Lemma tk_bind {A B} (m : M A) (k : A -> M B) : tickM m -> (forall a, tickM (k a)) -> tickM (Mbind m k).
Proof. intros Hm Hk w b w' E. unfold Mbind in E. destruct (m w) as [[a w1]|] eqn:E1; [|done]. rewrite (Hk a _ _ _ E). by eapply Hm. Qed.
Lemma tk_malloc_arr A n : tickM (malloc_arr A n).
Proof. intros w a w' E. unfold malloc_arr, Mbind, malloc, Mret in E. destruct (w_fail w (w_next w)); by injection E as <- <-. Qed.
Lemma tk_free_arr {A} (p : option (arr A)) : tickM (free_arr p).
Proof. intros w a w' E. unfold free_arr, free in E. destruct p; [|by injection E as <- <-]. destruct (decide _); [|done]. by injection E as <- <-. Qed.
Lemma tk_deref b : tickM (deref b).
Proof. intros w a w' E. unfold deref in E. destruct (decide _); [|done]. by injection E as <- <-. Qed.
Lemma tk_search lib pi_int o q k rad : tickM (ann_search lib pi_int o q k rad).
Proof.
  assert (forall ix, tickM (ann_search_2 lib o q k rad ix)) as H2.
  { intros ix. unfold ann_search_2. apply tk_bind; [apply tk_malloc_arr|]. intros [ib|]; [|apply tk_ret]. apply tk_bind; [apply tk_malloc_arr|]. intros [db|]; [|apply tk_ret].
    repeat (apply tk_bind; [apply tk_lift || apply tk_free_arr|]; intros). apply tk_ret. }
  unfold ann_search. apply tk_bind; [apply tk_deref|]. intros _. apply tk_bind; [apply tk_deref|]. intros _. destruct (i32max <? N.of_nat k)%N; [apply tk_ret|]. cbv zeta. destruct (pi_int && _); [|apply H2].
  apply tk_bind; [apply tk_malloc_arr|]. intros [db|]; [|apply tk_ret]. apply tk_bind; [apply tk_lift|]. intros r. destruct rad; [|apply H2].
  repeat (apply tk_bind; [apply tk_lift || apply tk_free_arr|]; intros). apply tk_ret.
Qed.

Lemma tk_init d s w r w' : ann_init d s w = Ok (r, w') -> w_tick w' = w_tick w + (match r with None => 0 | Some _ => 1 end).
Proof.
  unfold ann_init, Mbind, malloc, get_open, set_open, Mret, lift. destruct (i32max <? N.of_nat s.1)%N; [intros [= <- <-]; lia|]. destruct (w_fail w (w_next w)); [intros [= <- <-]; simpl; lia|]. simpl.
  destruct (w_fail w (S (w_next w))); [intros [= <- <-]; simpl; lia|]. destruct (with_ds d _) as [pts|]; [|done]. simpl. destruct (w_fail w (S (S (w_next w)))).
  - simpl. case_decide; [|done]. simpl. case_decide; [|done]. intros [= <- <-]. simpl. lia.
  - intros [= <- <-]. done.
Qed.

Section Searches.
Context (lib : ann_lib) (pi_int : bool) (d : dataset) (n : nat).
Hypothesis (Hd : data_ok d n) (HA : ann_exact lib d n).
Notation G := (eucl_geo d).

(** An open search object for the search points [S]. *)
Definition open_for (o : aobj) (S : list nat) (w : world) : Prop :=
  nn_good (ann_view lib pi_int d n) o /\ il_list (ao_set o) = S /\ (forall x, cnt x [ao_blk o; ao_pblk o; ao_tblk o] <= cnt x (w_live w)).

Lemma via_clean {A} (m1 m2 : M A) w Q : simM true m1 m2 -> Msat none m2 w (fun r w' => peffect w w' [] /\ Q r) -> Msat none m1 w (fun r w' => keeps w w' /\ Q r).
Proof.
  intros Hs H. unfold Msat in *. destruct (m2 w) as [[r w2]|] eqn:E; [|done]. destruct H as [(L & O & He) HQ]. destruct (Hs w w r w2 (simw_refl w) E) as (w1 & -> & F1 & F2 & F3 & F4 & F5 & _). cbn [Rsat].
  split; [|done]. destruct L as [L1 L2]. unfold keeps. splits; [split; [congruence|lia]|congruence|]. intros x. specialize (F5 x). specialize (O x). simpl in O. lia.
Qed.

Lemma search_claim o S q k rad w : open_for o S w -> query_list n q -> 0 < k -> k <= length S -> exists r w',
  ann_search lib pi_int o q k rad w = Ok (r, w') /\ keeps w w' /\ w_tick w' = w_tick w /\
  match r with
  | None => ~ no_fail w \/ (i32max < N.of_nat k)%N
  | Some (ok, nn) => search_ok G S (il_list q) k rad ok nn
  end.
Proof.
  intros (Ho & <- & Hb) Hq Hk HkS. pose proof (clean_search_ok lib pi_int d n Hd HA o q k rad Ho Hq Hk HkS w Hb) as H.
  apply (via_clean (ann_search lib pi_int o q k rad) _ w _ (sm_search lib pi_int true o q k rad (or_introl eq_refl))) in H.
  unfold Msat in H. destruct (ann_search lib pi_int o q k rad w) as [[r w']|] eqn:E; [|done]. destruct H as [H1 H2]. apply tk_search in E. eauto 10.
Qed.

Lemma init_claim s w : search_set n s -> exists r w', ann_init (Some d) s w = Ok (r, w') /\ keeps w w' /\ w_tick w' = w_tick w + (match r with None => 0 | Some _ => 1 end) /\
  match r with
  | None => ~ no_fail w \/ (i32max < N.of_nat s.1)%N
  | Some o => open_for o (il_list s) w'
  end.
Proof.
  intros Hs. pose proof (clean_init_ok lib pi_int d n Hd s w Hs) as H. unfold Msat in H. destruct (clean_init (Some d) s w) as [[r w2]|] eqn:E; [|done].
  destruct (sm_init true (Some d) s w w r w2 (simw_refl w) E) as (w1 & E1 & F1 & F2 & F3 & F4 & F5 & _). cbn [Rsat] in H. eexists _, _. split; [done|]. rewrite (tk_init _ _ _ _ _ E1).
  destruct r as [o|].
  - destruct H as (((L1 & L2) & O & He) & Hg & Hset). split.
    + unfold keeps. splits; [split; [congruence|lia]|congruence|]. intros x. specialize (F5 x). specialize (O x). lia.
    + split; [done|]. split; [done|]. split; [done|]. intros x. specialize (F5 x). specialize (O x). cbn [nn_blk ann_view] in O. lia.
  - destruct H as (((L1 & L2) & O & He) & Hr). split; [|split; [lia|done]]. unfold keeps. splits; [split; [congruence|lia]|congruence|]. intros x. specialize (F5 x). specialize (O x). simpl in O. lia.
Qed.

(** Closing releases what opening took. *)
Lemma close_claim o S w : open_for o S w -> exists r w', ann_close o w = Ok (r, w') /\ wle w w' /\ w_err w' = w_err w /\
  (r = true <-> w_tick w <> 0) /\ (w_tick w <> 0 -> w_tick w' = w_tick w - 1) /\
  w_live w ≡ₚ [ao_blk o; ao_pblk o; ao_tblk o] ++ w_live w'.
Proof.
  intros (Ho & _ & Hb). pose proof (ann_close_ok lib pi_int d n o w Hb) as H. unfold Msat in H.
  destruct (ann_close o w) as [[r w']|] eqn:E; [|done]. destruct H as (L & He & Hc). eexists _, _. split; [done|]. split; [done|]. split; [done|].
  assert ((r = true <-> w_tick w <> 0) /\ (w_tick w <> 0 -> w_tick w' = w_tick w - 1)) as [T1 T2].
  { unfold ann_close, Mbind, deref, free, get_open, set_open, Mret in E. repeat (case_decide; try done); simpl in E; repeat (case_decide; try done); injection E as <- <-; simpl in *; repeat split; intros; try done; lia. }
  splits; [done|done|]. apply cnt_perm. intros x. rewrite cnt_app. exact (Hc x).
Qed.

(** With int point indices a search over all points without radius leaves its array of
    distances behind. *)
Lemma leak_claim o S q k w : open_for o S w -> query_list n q -> 0 < k -> k <= length S -> (N.of_nat k <= i32max)%N -> no_fail w ->
  pi_int = true -> (ao_set o).2 = None -> exists r w' b, ann_search lib pi_int o q k None w = Ok (Some r, w') /\ w_live w' ≡ₚ b :: w_live w.
Proof.
  intros Ho Hq Hk HkS Hki Hn Hp Hs. destruct (search_claim o S q k None w Ho Hq Hk HkS) as (r & w' & E & _ & _ & Hr). rewrite E. destruct Ho as (_ & _ & Hb).
  destruct r as [r|]; [|destruct Hr; [done|lia]]. eexists _, _, (w_next w). split; [done|]. clear Hr. revert E. unfold ann_search. rewrite Hp, Hs. cbn [andb].
  unfold Mbind, deref. case_decide; [|done]. case_decide; [|done]. destruct (i32max <? N.of_nat k)%N eqn:El; [apply N.ltb_lt in El; lia|]. unfold malloc_arr, Mbind at 1, malloc. rewrite Hn by lia. cbn [Mret].
  unfold lift at 1. destruct (with_ds (ao_ds o) (fun d => direct_search lib d (ao_points o) q k None (fresh nat (q.1 * k)))) as [r1|]; [|done].
  unfold ann_search_2, malloc_arr, Mbind, malloc. cbn [w_fail w_next w_live]. rewrite Hn by lia. cbn [Mret w_fail w_next]. rewrite Hn by lia. cbn [Mret]. unfold lift. destruct (with_ds (ao_ds o) _) as [r2|]; [|done].
  unfold free_arr, free. cbn [w_live a_blk]. case_decide; [|done]. cbn [w_live]. case_decide; [|done]. cbn [Mret]. intros [= _ <-]. cbn [w_live].
  cbn [remove_blk]. rewrite (decide_False (P := Datatypes.S (Datatypes.S (w_next w)) = Datatypes.S (w_next w))) by lia. rewrite decide_True by done. cbn [remove_blk]. rewrite decide_True by done. done.
Qed.
End Searches.

(** ** Clusterings *)

Section Clusterings.
Context (cfg : config) (lib : ann_lib) (pi_int : bool) (d : dataset) (n : nat).
Hypothesis (Hd : data_ok d n) (HA : ann_exact lib d n).
Notation G := (eucl_geo d).

(** Every call returns what it returns with some provider that meets the contract; more
    memory may stay allocated. *)
Lemma transfer_claim : exists (P : provider) (V : pview P) (ds : p_ds P), provider_ok P V ds n G (eucl d) /\
  forall opt cl w r w2, sc_clustering cfg P ds opt cl w = Ok (r, w2) ->
  exists w1, sc_clustering cfg (ann lib pi_int) (Some d) opt cl w = Ok (r, w1) /\
    w_err w1 = w_err w2 /\ (forall x, cnt x (w_live w2) <= cnt x (w_live w1)) /\
    (pi_int = false -> no_fail w -> w_live w1 ≡ₚ w_live w2).
Proof.
  exists (clean lib pi_int), (ann_view lib pi_int d n), (Some d). split; [by apply clean_ok|].
  intros opt cl w r w2 E. destruct (sm_sc_clustering true cfg imp_check imp_num _ _ (sim_clean lib pi_int true (or_introl eq_refl)) (Some d) opt cl w w r w2 (simw_refl w) E) as (w1 & E1 & _ & _ & F3 & _ & F5 & _).
  exists w1. split; [done|]. split; [done|]. split; [done|]. intros Hp Hn.
  destruct (sm_sc_clustering false cfg imp_check imp_num _ _ (sim_clean lib pi_int false (or_intror Hp)) (Some d) opt cl w w r w2 (simw_same w Hn) E) as (w1' & E1' & _ & _ & _ & _ & _ & F6).
  unfold ann in E1. rewrite E1 in E1'. injection E1' as <-. apply cnt_perm. by apply F6.
Qed.

(** What [call_ok] asks for besides the provider. *)
Record ann_call_ok (o : options) (c : clustering) : Prop := {
  ac_cfg : config_ok cfg;
  ac_clu : clu_ok c;
  ac_read : prim_readable o;
  ac_sane : options_valid o n -> options_sane o n;
  ac_batch : o_seed o = SM_BATCHES -> (N.of_nat (o_size o) * eff_batch n (o_batch o) <= u32max)%N
}.

Context (o : options) (c : clustering).
Hypothesis (Hc : ann_call_ok o c).

Lemma clean_call : call_ok cfg (clean lib pi_int) (ann_view lib pi_int d n) (Some d) n G (eucl d) o c.
Proof. destruct Hc. constructor; auto. by apply clean_ok. Qed.

(** Without allocation failures: what comes out, and what stays allocated. *)
Lemma cluster_claim w : no_fail w -> exists ec c' w', sc_clustering cfg (ann lib pi_int) (Some d) (Some o) (Some c) w = Ok ((ec, Some c'), w') /\
  (ec = ER_OK ->
    c_n c' = n /\ 1 <= c_k c' /\ (forall i, i < c_k c' -> o_size o <= length (cluster c' i)) /\
    (forall x, x < n -> unlabelled cfg c' x \/ exists i, i < c_k c' /\ label_of c' x = Some (Z.of_nat i)) /\
    (o_num_types o < 2 -> o_seed o <> SM_BATCHES -> forall i, i < c_k c' -> exists s r,
       s ∈ primary o n /\ NoDup (s :: r) /\ S (length r) = o_size o /\ (forall x, x ∈ s :: r -> x ∈ cluster c' i) /\
       (forall x, x ∈ r -> within_opt G (srad_of o) s x = true) /\
       (forall x y, x ∈ r -> y < n -> y ∉ s :: r -> nearer G s x y = true))) /\
  (ec <> ER_OK -> e_code (w_err w') = ec) /\
  (pi_int = false -> ec = ER_OK \/ ~ is_exclusion (o_seed o) \/ (o_prim o = None /\ o_srad o = RM_NO_RADIUS) ->
    w_live w' ++ arr_blk (c_label c) ≡ₚ arr_blk (c_label c') ++ w_live w).
Proof.
  intros Hn. pose proof clean_call as Hcc. destruct (claim_safe _ _ _ _ _ _ _ _ _ Hcc w Hn) as (ec & c' & w2 & E2). exists ec, c'.
  destruct (sm_sc_clustering true cfg imp_check imp_num _ _ (sim_clean lib pi_int true (or_introl eq_refl)) (Some d) (Some o) (Some c) w w _ w2 (simw_refl w) E2) as (w1 & E1 & _ & _ & F3 & _).
  exists w1. split; [done|]. split.
  { intros ->. pose proof (claim_labels _ _ _ _ _ _ _ _ _ Hcc _ _ _ E2) as (H1 & H2 & H3 & H4 & H5). splits; auto.
    - intros i Hi. destruct (decide (o_seed o = SM_BATCHES)) as [Hb|Hb]; [exact (claim_size_batches _ _ _ _ _ _ _ _ _ Hcc _ _ _ E2 i Hb Hi)|exact (claim_size _ _ _ _ _ _ _ _ _ Hcc _ _ _ E2 i Hb Hi)].
    - intros Ht Hb i Hi. exact (claim_seed _ _ _ _ _ _ _ _ _ Hcc _ _ _ E2 i Ht Hb Hi). }
  split. { intros He. rewrite F3. exact (proj1 (claim_error_code _ _ _ _ _ _ _ _ _ Hcc _ _ _ _ E2 He)). }
  intros Hp Hcase. destruct (sm_sc_clustering false cfg imp_check imp_num _ _ (sim_clean lib pi_int false (or_intror Hp)) (Some d) (Some o) (Some c) w w _ w2 (simw_same w Hn) E2) as (w1' & E1' & _ & _ & _ & _ & _ & F6).
  rewrite E1 in E1'. injection E1' as <-. destruct (F6 eq_refl) as [_ F7]. apply cnt_perm in F7. rewrite F7.
  destruct (claim_no_leak _ _ _ _ _ _ _ _ _ Hcc _ _ _ _ E2 Hcase) as (c1 & [= <-] & H). exact H.
Qed.

(** Nothing is left behind if scc_PointIndex is not int and no allocation fails. *)
Lemma release_claim w ec c' w' : no_fail w -> pi_int = false -> sc_clustering cfg (ann lib pi_int) (Some d) (Some o) (Some c) w = Ok ((ec, Some c'), w') ->
  ec = ER_OK \/ ~ is_exclusion (o_seed o) \/ (o_prim o = None /\ o_srad o = RM_NO_RADIUS) ->
  w_live w' ++ arr_blk (c_label c) ≡ₚ arr_blk (c_label c') ++ w_live w.
Proof.
  intros Hn Hp E. destruct (cluster_claim w Hn) as (ec1 & c1 & w1 & E1 & _ & _ & H). rewrite E in E1. injection E1 as <- <- <-. clear E. exact (H Hp).
Qed.
End Clusterings.

Lemma others_claim cfg lib pi_int ds :
  (forall qs log2cap k batch cl w, hierarchical_clustering cfg (ann lib pi_int) qs log2cap ds k batch cl w = hierarchical_clustering cfg builtin qs log2cap ds k batch cl w) /\
  (forall cl all w, get_clustering_stats cfg (ann lib pi_int) ds cl all w = get_clustering_stats cfg builtin ds cl all w).
Proof. split; reflexivity. Qed.

(** ** An exact library *)

(** Distance between the points with coordinates at positions [p] and [q] of [m]. *)
Definition pos_sqd (m : list double) (dim p q : nat) : double :=
  let co a t := default d_zero (m !! (a + t)) in
  foldl (fun acc t => d_add acc (d_mul (d_sub (co p t) (co q t)) (d_sub (co p t) (co q t)))) d_zero (seq 0 dim).
Definition to_point (pts : list nat) (t : nat) : nat := default 0 (pts !! t).
Definition in_sq (m : list double) (dim : nat) (pts : list nat) (q : nat) (rsq : double) (t : nat) : bool := negb (d_gt (pos_sqd m dim q (to_point pts t)) rsq).

(** Compares all points. *)
Definition brute : ann_lib := {|
  ann_k := fun m dim pts q k => take k (isort (fun t => pos_sqd m dim q (to_point pts t)) (seq 0 (length pts)));
  ann_fr := fun m dim pts q rsq k =>
    let l := filter (fun t => in_sq m dim pts q rsq t = true) (seq 0 (length pts)) in
    let c := take k (isort (fun t => pos_sqd m dim q (to_point pts t)) l) in
    (length l, (Some <$> c) ++ replicate (k - length c) None)
|}.

Lemma pos_sqd_ok d m i j : ds_matrix d = Some m -> pos_sqd m (ds_dim d) (i * ds_dim d) (j * ds_dim d) = sqd d i j.
Proof. intros E. unfold pos_sqd, sqd, coord. by rewrite E. Qed.

Lemma points_ins S (key key' : nat -> double) t l : (forall t, t < length S -> key' t = key (default 0 (S !! t))) -> t < length S -> Forall (fun t => t < length S) l ->
  points_at S (ins key' t l) = ins key (default 0 (S !! t)) (points_at S l).
Proof.
  intros Hk Ht. induction 1 as [|u l Hu Hl IH]; [done|]. unfold points_at in *. cbn [ins]. rewrite fmap_cons. cbn [ins]. rewrite <- !Hk by done.
  destruct (d_lt (key' t) (key' u)); [done|]. by rewrite fmap_cons, IH.
Qed.
Lemma ins_in key t u l : u ∈ ins key t l -> u = t \/ u ∈ l.
Proof. rewrite (ins_perm key t l). rewrite elem_of_cons. done. Qed.
Lemma points_sort S (key key' : nat -> double) l : (forall t, t < length S -> key' t = key (default 0 (S !! t))) -> Forall (fun t => t < length S) l ->
  points_at S (isort key' l) = isort key (points_at S l).
Proof.
  intros Hk. induction l as [|t l IH] using rev_ind; [done|]. intros [Hl Ht]%Forall_app. apply Forall_cons in Ht as [Ht _]. rewrite isort_snoc. unfold points_at at 2. rewrite fmap_app. cbn. fold (points_at S l). rewrite isort_snoc, <- IH by done.
  apply points_ins; auto. rewrite isort_perm. done.
Qed.
Lemma points_filter S (p p' : nat -> bool) l : (forall t, t < length S -> p' t = p (default 0 (S !! t))) -> Forall (fun t => t < length S) l ->
  points_at S (filter (fun t => p' t = true) l) = filter (fun x => p x = true) (points_at S l).
Proof.
  intros Hk. induction 1 as [|t l Ht Hl IH]; [done|]. unfold points_at in *. rewrite fmap_cons, !filter_cons, <- Hk by done. destruct (decide (p' t = true)); [|done]. by rewrite fmap_cons, IH.
Qed.
Lemma points_all S : points_at S (seq 0 (length S)) = S.
Proof.
  apply list_eq. intros i. unfold points_at. rewrite list_lookup_fmap. destruct (decide (i < length S)) as [Hi|Hi].
  - rewrite lookup_seq_lt by done. simpl. destruct (lookup_lt_is_Some_2 S i Hi) as [x ->]. done.
  - rewrite (lookup_ge_None_2 S) by lia. rewrite (lookup_ge_None_2 (seq 0 _)); [done|]. rewrite seq_length. lia.
Qed.
Lemma seq_lt m : Forall (fun t => t < m) (seq 0 m).
Proof. apply Forall_forall. intros t Ht%elem_of_seq. lia. Qed.

Lemma brute_exact d n : data_ok d n -> ann_exact brute d n.
Proof.
  intros Hd. constructor.
  - intros m S q k E Hnd HS Hq Hk HkS. cbn [ann_k brute]. rewrite fmap_length. set (key' := fun t => pos_sqd m (ds_dim d) (q * ds_dim d) (to_point ((fun x => x * ds_dim d) <$> S) t)).
    assert (forall t, t < length S -> key' t = sqd d q (default 0 (S !! t))) as Hkey.
    { intros t Ht. unfold key', to_point. rewrite list_lookup_fmap. destruct (lookup_lt_is_Some_2 S t Ht) as [x ->]. simpl. by apply pos_sqd_ok. }
    split. { apply Forall_take. rewrite isort_perm. apply seq_lt. }
    unfold points_at. rewrite fmap_take. fold (points_at S (isort key' (seq 0 (length S)))). rewrite (points_sort S (sqd d q) key') by (auto using seq_lt). rewrite points_all.
    pose proof (nn_row_nearest d n Hd S k None q) as H. unfold nn_row in H. cbn [within_opt] in H. rewrite all_in in H. auto.
  - intros m S q k r E Hnd HS Hq Hk HkS. cbn [ann_fr brute]. rewrite fmap_length. set (key' := fun t => pos_sqd m (ds_dim d) (q * ds_dim d) (to_point ((fun x => x * ds_dim d) <$> S) t)).
    assert (forall t, t < length S -> key' t = sqd d q (default 0 (S !! t))) as Hkey.
    { intros t Ht. unfold key', to_point. rewrite list_lookup_fmap. destruct (lookup_lt_is_Some_2 S t Ht) as [x ->]. simpl. by apply pos_sqd_ok. }
    set (p' := in_sq m (ds_dim d) ((fun x => x * ds_dim d) <$> S) (q * ds_dim d) (d_mul r r)).
    assert (forall t, t < length S -> p' t = within (eucl_geo d) r q (default 0 (S !! t))) as Hp. { intros t Ht. unfold p', in_sq. simpl. by rewrite <- Hkey. }
    set (l := filter (fun t => p' t = true) (seq 0 (length S))).
    assert (points_at S l = filter (fun x => within (eucl_geo d) r q x = true) S) as El. { unfold l. rewrite (points_filter S (within (eucl_geo d) r q) p') by (auto using seq_lt). by rewrite points_all. }
    assert (length l = length (filter (fun x => within (eucl_geo d) r q x = true) S)) as Ell. { rewrite <- El. unfold points_at. by rewrite fmap_length. }
    assert (Forall (fun t => t < length S) l) as Hl. { apply Forall_forall. intros t Ht. unfold l in Ht. apply elem_of_list_filter in Ht as [_ Ht%elem_of_seq]. lia. }
    split. { rewrite app_length, fmap_length, replicate_length, take_length. lia. } split; [done|]. intros Hf.
    assert (length (take k (isort key' l)) = k) as Hlen. { rewrite take_length, (isort_perm key' l). lia. }
    exists (take k (isort key' l)). split. { rewrite Hlen, Nat.sub_diag. simpl. by rewrite app_nil_r. }
    split. { apply Forall_take. by rewrite isort_perm. }
    assert (points_at S (take k (isort key' l)) = nn_row d S k (Some r) q) as Er. { unfold points_at. rewrite fmap_take. fold (points_at S (isort key' l)). rewrite (points_sort S (sqd d q) key') by done. by rewrite El. }
    rewrite Er. split; [|exact (nn_row_within d S k (Some r) q)]. rewrite Ell in Hf. exact (nn_row_nearest d n Hd S k (Some r) q Hf).
Qed.

(** ** Trying it out *)

(** Clustering points on a line with the exact library. *)
Definition ann_line (pi_int : bool) (l : list Z) (o : options) (w : world) : R (ecode * option clustering * world) :=
  sc_clustering default_config (ann brute pi_int) (Some (line l)) (Some o) (Some (new_clustering (length l))) w.


Lemma ann_line_call l o : l <> [] -> finite_b l = true -> sane_b o (length l) = true -> ann_call_ok default_config (length l) o (new_clustering (length l)).
Proof. intros H1 H2 H3. destruct (line_call default_config l o (new_clustering (length l)) default_config_ok H1 H2 H3) as [? ? ? ? ? ?]; [done|]. by constructor. Qed.

Lemma leak_int : exists d n o c, data_ok d n /\ ann_exact brute d n /\ ann_call_ok default_config n o c /\
  exists w c' w', no_fail w /\ sc_clustering default_config (ann brute true) (Some d) (Some o) (Some c) w = Ok ((ER_OK, Some c'), w') /\
  ~ w_live w' ++ arr_blk (c_label c) ≡ₚ arr_blk (c_label c') ++ w_live w.
Proof.
  exists (line pts), 12, (with_size 3 default_options), (new_clustering 12). split; [by apply line_data|]. split; [by apply brute_exact, line_data|]. split; [by apply (ann_line_call pts)|].
  exists world0. eexists _, _. split; [done|]. split; [vm_compute; reflexivity|]. intros H%Permutation_length. vm_compute in H. discriminate H.
Qed.

Lemma leak_failure : exists d n o c, data_ok d n /\ ann_exact brute d n /\ ann_call_ok default_config n o c /\
  exists w c' w', sc_clustering default_config (ann brute false) (Some d) (Some o) (Some c) w = Ok ((ER_DIST_SEARCH_ERROR, Some c'), w') /\
  ~ w_live w' ++ arr_blk (c_label c) ≡ₚ arr_blk (c_label c') ++ w_live w.
Proof.
  exists (line pts), 12, (with_size 3 default_options), (new_clustering 12). split; [by apply line_data|]. split; [by apply brute_exact, line_data|]. split; [by apply (ann_line_call pts)|].
  exists (world_fail 6). eexists _, _. split; [vm_compute; reflexivity|]. intros H%Permutation_length. vm_compute in H. discriminate H.
Qed.
