(** The estimated radius (iscc_estimate_avg_seed_dist). *)

From stdpp Require Import prelude list sorting.
From Coq Require Import NArith ZArith.
From Verif Require Import Base World Mem Digraph DigraphRep DigraphOps DigraphDiff Float Spi Options Arrays GraphSpec SeedSpec AssignSpec Seeds SeedsProof SeedsExcl Nng NngGraph NngSize NngAssign NngStage.

Section Est.
Context (cfg : config) (P : provider) (V : pview P) (ds : p_ds P) (n : nat) (G : geometry) (D : dist_fun).
Hypothesis (HP : provider_ok P V ds n G D).
Notation solid w := (no_fail w /\ provider_reliable P V ds n).
Notation dg_rep := (dg_rep cfg).

Lemma Msat_dist_rows B lenq q Q lenc c C b cells w :
  argcells q lenq Q -> Q <> [] -> Forall (fun x => x < n) Q ->
  argcells c lenc C -> C <> [] -> Forall (fun x => x < n) C -> lenq * lenc <= length cells ->
  Msat B (dist_rows P ds lenq q lenc c (Some (Arr b cells))) w (fun r w' =>
    wle w w' /\ own w' [] w /\ w_err w' = w_err w /\
    match r with
    | None => ~ solid w
    | Some out => written (concat ((fun x => D x <$> C) <$> Q)) (Some (Arr b cells)) out
    end).
Proof.
  intros Hq Hne Hlt Hc HneC HltC Hcap. unfold dist_rows.
  pose proof (argcells_length _ _ _ Hq) as HlQ. pose proof (argcells_length _ _ _ Hc) as HlC.
  apply Msat_bind, Msat_lift. eapply Rsat_mono; [by apply read_idx_arg|]. intros qs (H1 & H2 & _).
  apply Msat_bind, Msat_lift. eapply Rsat_mono; [by apply read_idx_arg|]. intros cs (H3 & H4 & _).
  assert (query_list n qs) as Hql by (unfold query_list; rewrite H2, H1; auto).
  assert (query_list n cs) as Hcl by (unfold query_list; rewrite H4, H3; auto).
  pose proof (pk_rows _ _ _ _ _ _ HP w qs cs Hql Hcl) as Hs.
  apply Msat_bind. unfold Msat at 1. unfold Msat at 1 in Hs. destruct (p_rows P ds qs cs w) as [[r w']|u] eqn:E; [|by destruct Hs].
  simpl in *. destruct Hs as [(L & O & Er) Hs]. destruct r as [d|].
  2:{ apply Msat_ret. splits; auto. intros [F Hr].
      pose proof (rel_rows _ _ _ _ Hr w qs cs Hql Hcl F) as Hx. unfold Msat in Hx. rewrite E in Hx. by apply Hx. }
  rewrite H2, H4 in Hs. subst d.
  apply Msat_bind, Msat_lift. eapply Rsat_mono; [apply write_out_sat; [lia|]|].
  { rewrite <- HlQ, <- HlC. clear. induction Q as [|x Q IH]; [done|]. csimpl. rewrite app_length, fmap_length. simpl. lia. }
  intros o Ho. apply Msat_ret. auto.
Qed.

Lemma filled_drop {A} (c : list (option A)) xs k : filled c xs -> k <= length xs -> filled (drop k c) (drop k xs).
Proof. intros [r ->] Hk. exists r. rewrite fmap_drop, drop_app_le; [done|]. by rewrite fmap_length. Qed.

Lemma filled_prefix {A} (c : list (option A)) xs ys : filled c (xs ++ ys) -> filled c xs.
Proof. intros [r ->]. exists ((Some <$> ys) ++ r). by rewrite fmap_app, <- app_assoc. Qed.

Lemma rep_row_cells dg g v r : dg_rep dg g -> g !! v = Some r -> r <> [] ->
  exists hb hc, dg_head dg = Some (Arr hb hc) /\ filled (drop (offs g v) hc) r.
Proof.
  intros H Hv Hr. pose proof (rep_head _ _ _ H) as Hh.
  assert (concat g = concat (take v g) ++ r ++ concat (drop (S v) g)) as Hc.
  { rewrite <- (take_drop_middle g v r Hv) at 1. rewrite concat_app. done. }
  destruct (dg_head dg) as [[hb hc]|].
  - exists hb, hc. split; [done|]. destruct Hh as (_ & _ & Hf). simpl in Hf. rewrite Hc in Hf.
    apply filled_drop with (k := offs g v) in Hf; [|rewrite app_length; unfold offs; lia].
    unfold offs in Hf at 2. rewrite drop_app in Hf. by eapply filled_prefix.
  - destruct Hh as [_ Hh]. rewrite Hc in Hh. apply app_eq_nil in Hh as [_ Hh]. apply app_eq_nil in Hh as [Hh _]. done.
Qed.

Lemma est_step_pos c : 1 <= est_step c.
Proof.
  unfold est_step. destruct (decide (1000 < c)); [|lia]. apply Nat.div_le_lower_bound; lia.
Qed.

Lemma est_index_lt c i : i < (c + est_step c - 1) / est_step c -> i * est_step c < c.
Proof.
  intros H. pose proof (est_step_pos c) as Hp. set (st := est_step c) in *.
  assert (st * (S i) <= c + st - 1) as Hle; [|lia].
  etrans; [|apply (Nat.mul_div_le (c + st - 1) st); lia]. apply Nat.mul_le_mono_l. lia.
Qed.

Lemma foldl_snoc {A C} (f : A -> C -> A) l x a : foldl f a (l ++ [x]) = f (foldl f a l) x.
Proof. by rewrite foldl_app. Qed.

Lemma est_inner B dg g s r b c : dg_rep dg g -> g !! s = Some r -> filled c (D s <$> r) ->
  Rsat B (forR (length r) 0 (d_zero, 0) (fun j '(tmp, m) =>
            let! x := aget (dg_head dg) (offs g s + j) in
            if decide (x <> s) then
              let! dd := aget (Some (Arr b c)) j in Ok (d_add tmp dd, m + 1)
            else Ok (tmp, m)))
   (fun '(tmp, m) => tmp = foldl d_add d_zero (D s <$> filter (fun x => x <> s) r) /\ m = length (filter (fun x => x <> s) r)).
Proof.
  intros H Hr Hf.
  apply (forR_sat0 B (fun j '(tmp, m) => tmp = foldl d_add d_zero (D s <$> filter (fun x => x <> s) (take j r)) /\
    m = length (filter (fun x => x <> s) (take j r)))).
  - done.
  - intros j [tmp m] Hj (-> & ->). destruct (lookup_lt_is_Some_2 r j Hj) as [x Hx].
    rewrite (rep_head_get cfg _ _ s r j x H Hr Hx). cbn [Rbind]. rewrite (take_S_r _ _ _ Hx), filter_app, (filter_cons _ x []), filter_nil.
    destruct (decide (x <> s)) as [Hne|Hne].
    + rewrite (aget_cells _ _ _ (D s x)); [|eapply filled_lookup; [exact Hf|by rewrite list_lookup_fmap, Hx]]. cbn [Rbind Rsat].
      rewrite fmap_app, foldl_app, app_length. done.
    + rewrite app_nil_r. done.
  - intros [tmp m]. rewrite firstn_all. auto.
Qed.

Lemma Msat_estimate B sr ss sb dg g size w :
  seed_st cfg sr ss sb -> dg_rep dg g -> length g = n ->
  (forall s, s ∈ ss -> s < n /\ adj g s <> [] /\ length (adj g s) <= size) ->
  Msat B (estimate_avg_seed_dist P ds sr dg size) w (fun '(ec, d) w' =>
    wle w w' /\ own w' [] w /\
    ((ec = ER_OK /\ w_err w' = w_err w /\ d = est_dist D g ss) \/
     (ec <> ER_OK /\ search_fail P V ds n w ec w'))).
Proof.
  intros (sc & Es & Hsf & Hcnt & _) H Hg Hss. unfold estimate_avg_seed_dist. rewrite Hcnt, Es.
  change (if decide (max_sample < length ss) then length ss / max_sample else 1) with (est_step (length ss)).
  apply Msat_bind, Msat_malloc_arr.
  { intros w1 L1 O1 E1 _ F1. apply Msat_bind, Msat_make_error__. intros w2 L2 O2 E2 _. apply Msat_ret. split; [wl|]. split; [blk|].
    right. split; [done|]. split; [by rewrite E2|]. auto. }
  intros w1 b L1 O1 E1 _. set (st := est_step (length ss)).
  set (f := fun i => default 0 (ss !! (i * st))).
  apply Msat_bind.
  apply (loopM_sat B (fun i '(sampled, sum, a) w' => wle w1 w' /\ own w' [] w1 /\ w_err w' = w_err w1 /\
     sampled = i /\ sum = foldl d_add d_zero (avg_dist D g <$> (f <$> seq 0 i)) /\ exists c, a = Some (Arr b c) /\ length c = size)
     (fun _ w' => wle w1 w' /\ own w' [] w1 /\ ~ solid w1)).
  - splits; auto; [blk|]. eexists. split; [done|]. unfold fresh. by rewrite replicate_length.
  - intros i [[sampled sum] a] w2 Hi (L2 & O2 & E2 & -> & -> & c & -> & Hc). apply est_index_lt in Hi. fold st in Hi.
    destruct (lookup_lt_is_Some_2 ss (i * st) Hi) as [s Hs]. destruct (Hss s) as (Hsn & Hne & Hlen); [by eapply elem_of_list_lookup_2|].
    destruct (lookup_lt_is_Some_2 g s) as [r Hr]; [lia|]. assert (adj g s = r) as Har by (unfold adj; by rewrite Hr). rewrite Har in Hne, Hlen.
    apply Msat_bind, Msat_lift. rewrite (aget_cells _ _ _ s) by (by eapply filled_lookup). cbn [Rsat].
    apply Msat_bind, Msat_lift. rewrite (rep_tail_get cfg _ _ s H) by lia. cbn [Rsat].
    apply Msat_bind, Msat_lift. rewrite (rep_tail_get cfg _ _ (s + 1) H) by lia. cbn [Rsat].
    rewrite Nat.add_1_r, (offs_S _ _ _ Hr). replace (offs g s + length r - offs g s) with (length r) by lia.
    destruct (rep_row_cells _ _ _ _ H Hr Hne) as (hb & hc & Hh & Hf). 
    apply Msat_bind. eapply Msat_mono.
    { apply (Msat_dist_rows B 1 _ [s] (length r) _ r b c); auto; try done.
      - split; [|done]. by exists [].
      - rewrite Hh. done.
      - apply (Forall_lookup_1 _ _ _ _ (rep_lt _ _ _ H)) in Hr. by rewrite Hg in Hr.
      - lia. }
    intros [o|] w3 (L3 & O3 & E3 & Ho).
    2:{ apply Msat_ret. splits; [wl|blk|]. intros HS. apply Ho. eapply solid_wle; [|exact HS]. wl. }
    destruct Ho as (b' & c1 & c' & Eb & -> & Hfc & Hlc). injection Eb as <- <-. simpl in Hfc. rewrite app_nil_r in Hfc.
    apply Msat_bind, Msat_lift. eapply Rsat_mono; [by apply (est_inner B dg g s r b c')|]. intros [tmp m] [-> ->]. apply Msat_ret.
    splits; [wl|blk|congruence|lia| |eexists; split; [done|congruence]].
    rewrite seq_S, fmap_app, fmap_app, foldl_app. simpl. f_equal. unfold avg_dist, f. rewrite Hs. simpl. by rewrite Har.
  - intros [[sampled sum] a] w2 (L2 & O2 & E2 & -> & -> & _). apply Msat_bind, Msat_free_arr; [blk|]. intros w3 L3 C3 E3 _. apply Msat_ret.
    split; [wl|]. split; [blk|]. left. splits; auto; [congruence|]. unfold est_dist, est_sample. fold st. fold f. by rewrite fmap_length, seq_length.
  - intros [] w2 (L2 & O2 & Hns). apply Msat_bind, Msat_free_arr; [blk|]. intros w3 L3 C3 E3 _.
    apply Msat_bind, Msat_make_error__. intros w4 L4 O4 E4 _. apply Msat_ret. split; [wl|]. split; [blk|].
    right. split; [done|]. split; [by rewrite E4|]. right. split; [done|]. intros HS. apply Hns. by eapply solid_wle.
Qed.
End Est.
