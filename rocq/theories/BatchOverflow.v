(** The product size_constraint * batch_size in scc_nng_clustering_batches. *)

From stdpp Require Import prelude list sorting.
From Coq Require Import NArith ZArith.
From Verif Require Import Base World Mem Digraph DigraphRep Float Spi Options Arrays GraphSpec SeedSpec AssignSpec SeedsExcl
  Nng NngGraph NngSize NngAssign NngStage TypeCount TypeRows Batch BatchSpec BatchProof OptionsProof NngClustering
  ScSpec ScProof ClusSpec ScFacts Approx ScClaims.

Section Overflow.
Context (cfg : config) (Hcfg : config_ok cfg) (P : provider) (V : pview P) (ds : p_ds P) (n : nat) (G : geometry) (D : dist_fun).
Hypothesis (HP : provider_ok P V ds n G D).
Notation B := (fun u => u = Oob).

(** If the product wraps, the search writes behind the buffer. *)
Lemma batches_overflow cl size um rad w :
  solid P V ds n w -> is_initialized_clustering cfg (Some cl) = true -> clu_ok cl -> c_n cl = n -> c_k cl = 0 ->
  2 <= size -> size <= n -> um = UM_IGNORE \/ um = UM_ANY_NEIGHBOR -> (forall r, rad = Some r -> d_le r d_zero = false) ->
  (N.of_nat n <= u32max)%N -> wrapN u32max (size * n) < size * n ->
  Msat B (nng_clustering_batches cfg P cl ds size um rad 0 None 0) w (fun _ _ => False).
Proof.
  intros Hsol Hcl Hok Hn Hk Hs2 Hsn Hum Hrad Hn32 Hwrap. pose proof (pk_check _ _ _ _ _ _ HP) as Hck. pose proof (pk_num _ _ _ _ _ _ HP) as Hnum.
  unfold nng_clustering_batches. rewrite Hcl, Hck, Hnum, Hn, Hk. cbn [negb].
  rewrite (decide_False (P := n <> n)) by congruence. rewrite (decide_False (P := size < 2)) by lia. rewrite (decide_False (P := n < size)) by lia.
  rewrite (decide_False (P := um <> UM_IGNORE /\ um <> UM_ANY_NEIGHBOR)) by tauto.
  replace (match rad with Some r => d_le r d_zero | None => false end) with false by (destruct rad; [by rewrite (Hrad _ eq_refl)|done]).
  rewrite (decide_False (P := is_Some None /\ 0 = 0)) by (intros [[? ?] ?]; done).
  rewrite (decide_False (P := None = None /\ 0 < 0)) by lia.
  rewrite (decide_False (P := 0 <> 0)) by congruence. rewrite (decide_True (P := 0 = 0)) by done.
  set (bsz := if (N.of_nat n <? u32max)%N then n else N.to_nat u32max).
  assert (bsz = n) as Hbsz. { unfold bsz. destruct (N.ltb_spec (N.of_nat n) u32max); lia. } clearbody bsz. subst bsz.
  apply Msat_bind. eapply Msat_mono; [apply (Msat_nn_init P V ds n G D HP B n None (seq 0 n)); auto|].
  { done. }
  { intros E0. apply (f_equal length) in E0. rewrite seq_length in E0. simpl in E0. lia. }
  { apply Forall_forall. intros x Hx%elem_of_seq. lia. }
  { apply NoDup_seq. }
  intros [o|] w1 (L1 & E1 & H1); [|destruct H1; tauto]. destruct H1 as (O1 & Hg & Hset). pose proof Hsol as [Hnf Hrel].
  apply Msat_bind. eapply Msat_mono; [apply Msat_malloc_any|]. intros bi w2 (L2 & O2 & E2 & F2 & S2).
  apply Msat_bind. eapply Msat_mono; [apply Msat_malloc_any|]. intros out w3 (L3 & O3 & E3 & F3 & S3).
  apply Msat_bind. eapply Msat_mono; [apply Msat_calloc_any|]. intros asg w4 (L4 & O4 & E4 & F4 & S4).
  destruct bi as [a1|]; [|exfalso; apply F2; [done|]; eapply no_fail_wle; [exact Hnf|]; wl].
  destruct out as [a2|]; [|exfalso; apply F3; [done|]; eapply no_fail_wle; [exact Hnf|]; wl].
  destruct asg as [a3|]; [|exfalso; apply F4; [done|]; eapply no_fail_wle; [exact Hnf|]; wl].
  destruct (S2 _ eq_refl) as [bb ->], (S3 _ eq_refl) as [ob ->], (S4 _ eq_refl) as [ab ->].
  apply Msat_bind. eapply Msat_mono with (P := fun r w5 => wle w4 w5 /\
    match r with
    | None => False
    | Some cl1 => c_n cl1 = n /\ (exists lb c0, c_label cl1 = Some (Arr lb c0) /\ length c0 = n) /\ (forall x, cnt x (w_live w4) <= cnt x (w_live w5))
    end).
  { destruct (c_label cl) as [[lb c0]|] eqn:Ecl.
    - apply Msat_ret. split; [wl|]. splits; auto. exists lb, c0. split; [done|]. unfold clu_ok in Hok. rewrite Ecl in Hok. simpl in Hok. congruence.
    - apply Msat_bind, Msat_malloc_arr.
      + intros w5 L5 O5 E5 _ F5. exfalso. apply F5. eapply no_fail_wle; [exact Hnf|]. wl.
      + intros w5 b L5 O5 E5 _. apply Msat_ret. splits; auto.
        * eexists b, _. split; [done|]. unfold fresh. by rewrite replicate_length.
        * intros x. specialize (O5 x). simpl in O5. lia. }
  intros [cl1|] w5 [L5 H5]; [|done]. destruct H5 as (Hn1 & (lb & c0 & Hl1 & Hc0) & Hmono1).
  apply Msat_bind. apply Msat_ret. apply Msat_bind. unfold Batch.run_batches. apply Msat_bind. rewrite Hn1, Hl1.
  apply (loopM_sat B (fun j st w' => j = 0 /\ st = (0, false, 0, Some (Arr lb c0), Some (Arr bb (fresh nat n)), Some (Arr ob (fresh nat (wrapN u32max (size * n)))), Some (Arr ab (replicate n (Some false)))) /\ w' = w5) (fun _ _ => False)).
  { done. }
  2:{ intros st w' [? _]. lia. }
  2:{ done. }
  intros j st w' _ (-> & -> & ->). eapply Msat_mono with (P := fun _ _ => False); [|done].
  unfold batch_iter. rewrite decide_True by lia.
  apply Msat_bind, Msat_lift. rewrite replicate_farr, <- bits_nil.
  eapply Rsat_mono; [apply (collect_batch_sat cfg n B None (seq 0 n) ab [] n 0 lb c0 (replicate n None) bb (fresh nat n))|].
  { intros x Hx. apply elem_of_seq. lia. }
  { lia. }
  { split; [done|]. intros x Hx [?|?]; [lia|set_solver]. }
  { intros x _ _. unfold lab. destruct (replicate n None !! x) as [y|] eqn:Ey; [|done]. apply lookup_replicate_1 in Ey as [-> _]. done. }
  { unfold fresh. by rewrite replicate_length. }
  { by rewrite replicate_length. }
  intros [[[curr' nb] lab1] bi1] (lc1 & bc1 & bl & Hcc & -> & Hlc1 & -> & Hbc1 & Hbl & Hf1 & Hnb & Hnbs & Hend & Hprog).
  assert (bl = seq 0 curr') as Hbl'.
  { rewrite Hbl, Nat.sub_0_r. apply list_filter_all, Forall_forall. intros x Hx%elem_of_seq. split; [set_solver|]. apply elem_of_seq. lia. }
  assert (nb = n) as ->. { destruct Hend as [|Hend]; [done|]. rewrite Hnb, Hbl', seq_length. done. }
  assert (curr' = n) as -> by (rewrite Hbl', seq_length in Hnb; lia).
  rewrite decide_False by lia. apply Msat_bind. unfold nn_search. apply Msat_bind, Msat_lift.
  eapply Rsat_mono; [apply (read_idx_arg B _ n bl); split; [done|]; done|]. intros qs (H1 & H2 & _).
  assert (query_list n qs) as Hql.
  { unfold query_list. rewrite H2, H1, Hbl', seq_length. splits; auto.
    - intros E0. apply (f_equal length) in E0. rewrite seq_length in E0. simpl in E0. lia.
    - apply Forall_forall. intros x Hx%elem_of_seq. lia. }
  assert (size <= length (nn_set V o)) as Hks by (by rewrite Hset, seq_length).
  assert (forall x, cnt x (nn_blk V o) <= cnt x (w_live w5)) as Hb by blk.
  assert (no_fail w5) as Hnf5 by (eapply no_fail_wle; [exact Hnf|]; wl).
  pose proof (pk_nn_search _ _ _ _ _ _ HP w5 o qs size rad Hg Hql ltac:(lia) Hks Hb) as Hs.
  apply Msat_bind. unfold Msat at 1. unfold Msat at 1 in Hs. destruct (p_nn_search P o qs size rad w5) as [[r w']|u] eqn:Ep; [|by destruct Hs].
  simpl in *. destruct Hs as [_ Hs]. destruct r as [[ok nn]|].
  2:{ pose proof (rel_nn_search _ _ _ _ Hrel w5 o qs size rad Hg Hql ltac:(lia) Hks Hnf5) as Hx. unfold Msat in Hx. rewrite Ep in Hx. by destruct Hx. }
  apply Msat_bind, Msat_lift. unfold write_out. rewrite decide_False; [done|]. intros [Hle _]. simpl in Hle. unfold fresh in Hle. rewrite replicate_length in Hle. lia.
Qed.

Lemma sc_overflow o c w : solid P V ds n w -> is_initialized_clustering cfg (Some c) = true -> clu_ok c -> c_n c = n -> c_k c = 0 ->
  options_valid o n -> o_seed o = SM_BATCHES -> (o_pum o = UM_IGNORE \/ o_pum o = UM_ANY_NEIGHBOR) -> o_batch o = 0 -> o_prim o = None ->
  (N.of_nat n <= u32max)%N -> wrapN u32max (o_size o * n) < o_size o * n ->
  sc_clustering cfg P ds (Some o) (Some c) w = Bad Oob.
Proof.
  intros Hsol Hi Hok Hn Hk Hv Hsm Hum Hb Hp Hn32 Hw.
  assert (Msat B (sc_clustering cfg P ds (Some o) (Some c)) w (fun _ _ => False)) as Hs.
  { unfold sc_clustering. rewrite Hi, (pk_check _ _ _ _ _ _ HP). cbn [negb]. rewrite (pk_num _ _ _ _ _ _ HP), Hn, (decide_False (P := n <> n)) by congruence.
    apply Msat_bind. eapply Msat_mono; [apply (Msat_check_options B o n w)|].
    { intros p E. congruence. }
    intros ec w1 (L1 & O1 & [(-> & E1 & _)|(_ & _ & ? & _)]); [|done]. rewrite (decide_False (P := ER_OK <> ER_OK)) by congruence.
    rewrite Hk, (decide_False (P := 0 <> 0)) by congruence. rewrite decide_True by done. apply Msat_bind.
    pose proof (ov_prim _ _ Hv) as Hlp. rewrite Hp in Hlp. rewrite Hlp, Hp, Hb. eapply Msat_mono; [apply batches_overflow; auto|done].
    - destruct Hsol as [? ?]. split; [|done]. by eapply no_fail_wle.
    - apply (ov_size _ _ Hv).
    - apply (ov_size _ _ Hv).
    - intros r Hr. unfold seed_radius, radius_arg in Hr. destruct (ov_srad _ _ Hv) as [E|[E H]]; rewrite E in Hr; simpl in Hr; [done|]. by injection Hr as <-. }
  unfold Msat in Hs. destruct (sc_clustering cfg P ds (Some o) (Some c) w) as [[? ?]|u]; simpl in Hs; [done|]. by rewrite Hs.
Qed.
End Overflow.
