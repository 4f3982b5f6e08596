(** scc_sc_clustering asks for a bounded number of elements at a time. *)

From stdpp Require Import prelude list.
From Coq Require Import NArith ZArith.
From Verif Require Import Base World Mem Digraph DigraphRep DigraphOps Float Spi Options Arrays GraphSpec SeedSpec AssignSpec Seeds SeedsProof SeedsExcl
  Nng NngGraph NngSize NngAssign NngStage NngEst TypeCount TypeRows NngType Batch BatchSpec BatchProof OptionsProof NngClustering ScSpec ScProof Asks.

Definition askAt (b : nat) {A} (w : world) (m : M A) : Prop := forall a w', m w = Ok (a, w') -> w_most w' <= Nat.max (w_most w) b.

Lemma at_ask b {A} (Q : A -> Prop) m w : askM b Q m -> askAt b w m.
Proof. intros H a w' E. by destruct (H _ _ _ E). Qed.
Lemma at_bind b {A C} (m : M A) (k : A -> M C) w : askAt b w m -> (forall a w1, m w = Ok (a, w1) -> askAt b w1 (k a)) -> askAt b w (Mbind m k).
Proof.
  intros H1 H2 c w' E. unfold Mbind in E. destruct (m w) as [[a w1]|] eqn:E1; [|done]. specialize (H1 _ _ E1). specialize (H2 _ _ eq_refl _ _ E). lia.
Qed.
Lemma run_sat {A} B (m : M A) w Q a w' : Msat B m w Q -> m w = Ok (a, w') -> Q a w'.
Proof. unfold Msat. intros H E. by rewrite E in H. Qed.

Section Sc.
Context (b u : nat) (Hub : 20 * u + 4000 <= b).
Context (cfg : config) (Hcfg : config_ok cfg) (Hpi : (pi_max cfg <= N.of_nat u)%N) (Hai : (ai_max cfg <= N.of_nat u)%N) (Hcl : (cl_max cfg <= N.of_nat u)%N)
  (Hu32 : (u32max <= N.of_nat u)%N).
Context (P : provider) (V : pview P) (ds : p_ds P) (n : nat) (G : geometry) (D : dist_fun).
Hypothesis (HP : provider_ok P V ds n G D) (HPA : provider_asks b u P).
Context (o : options) (c : clustering).

Lemma at_any {A} (m : M A) w : askM b anyv m -> askAt b w m.
Proof. apply at_ask. Qed.

Lemma at_ret {A} (a : A) w : askAt b w (Mret a).
Proof. apply (at_ask _ anyv). by apply ak_ret. Qed.

Lemma at_err {A} ec msg f l (k : ecode -> A) w : askAt b w (let* ec := make_error__ ec msg f l in Mret (k ec)).
Proof. apply (at_ask _ anyv). eapply ak_bind; [apply ak_make_error__|]. intros. by apply ak_ret. Qed.

Lemma nassigned_le L : nassigned L <= length L.
Proof. unfold nassigned. apply filter_length. Qed.

Lemma len_prim_le : options_valid o n -> options_sane o n -> is_Some (o_prim o) -> o_len_prim o <= n.
Proof.
  intros Hv Hs [p Ep]. pose proof (prim_ok_options o n Hv Hs) as Hp. pose proof (prim_len n (o_len_prim o) (o_prim o) Hp) as Hl. rewrite Ep in Hl, Hp.
  destruct Hp as (Hp & _). unfold prim_list in Hl. rewrite take_length in Hl. lia.
Qed.

Lemma ask_cluster_seeds cl dg g sr ss sb r1 r2 : options_valid o n -> options_sane o n ->
  dg_rep cfg dg g -> nng_graph cfg o n G g -> independent_maximal g ss -> c_n cl = n -> n <= u -> clu_ok cl -> seed_st cfg sr ss sb ->
  askM b anyv (cluster_seeds cfg P cl ds dg o sr r1 r2).
Proof.
  intros Hv Hs H Hg Him Hn Hnu Hok Hseed. pose proof (nng_graph_len o n G g Hg) as Hlen.
  assert (groups_ok n g ss) as Hgr.
  { rewrite <- Hlen. apply (groups_ok_intro cfg dg g ss H); [by eapply nng_graph_nodup| |done]. intros v. by eapply nng_graph_irrefl. }
  assert (is_Some (o_prim o) -> o_len_prim o <= u) as Hp by (intros Hp; pose proof (len_prim_le Hv Hs Hp); lia).
  unfold cluster_seeds. eapply (ak_bind b (fun r => forall cl1, r = Some cl1 -> c_n cl1 = n /\ exists lb c0, c_label cl1 = Some (Arr lb c0) /\ length c0 = n)).
  { unfold clu_ok in Hok. destruct (c_label cl) as [[lb c0]|] eqn:El; simpl in Hok.
    - apply ak_ret. intros cl1 [= <-]. split; [done|]. exists lb, c0. split; [done|]. congruence.
    - eapply ak_bind; [apply ak_malloc_arr; lia|]. intros [[lb c0]|] Hl; apply ak_ret; [|done]. intros cl1 [= <-]. split; [done|]. exists lb, c0. split; [done|].
      specialize (Hl _ eq_refl). simpl in Hl. rewrite Hl. unfold fresh. rewrite replicate_length. done. }
  intros [cl1|] H1; [|eapply ak_bind; [apply ak_free_arr|]; intros _ _; eapply ak_bind; [apply ak_make_error__|]; intros; by apply ak_ret].
  destruct (H1 _ eq_refl) as (Hn1 & lb & c0 & El & Hc0).
  eapply (ak_bind b anyv); [|intros; eapply ak_bind; [apply ak_free_arr|]; intros; by apply ak_ret].
  eapply ak_make_clusters; eauto; [lia| |].
  - destruct Hseed as (sc & _ & _ & -> & _ & Hm). lia.
  - intros r Hr. pose proof (assign_seeds_sat cfg Hcfg anyub cl1 lb c0 sr ss sb dg g n H Hlen Hn1 El Hc0 Hseed Hgr) as Hsat. rewrite Hr in Hsat. destruct r as [cl' num]. destruct Hsat as [-> ->]. simpl.
    split; [lia|]. pose proof (nassigned_le (seed_labels g ss n)) as Hle. rewrite seed_labels_length in Hle. lia.
Qed.

Lemma at_from_nng cl dg g w : options_valid o n -> options_sane o n ->
  dg_rep cfg dg g -> nng_graph cfg o n G g -> o_seed o <> SM_BATCHES -> c_n cl = n -> clu_ok cl -> (N.of_nat n <= pi_max cfg)%N ->
  askAt b w (make_clustering_from_nng cfg P cl ds dg o).
Proof.
  intros Hv Hs H Hg Hnb Hn Hok Hpn. pose proof (nng_graph_len o n G g Hg) as Hlen. pose proof (ov_size _ _ Hv) as Hsize. assert (n <= u) as Hnu by lia.
  assert (is_nng_method (o_seed o)) as Hnm. { pose proof (ov_seed _ _ Hv). unfold is_nng_method, is_exclusion. destruct (o_seed o); first [by exfalso; auto | by auto 8]. }
  unfold make_clustering_from_nng. apply at_bind.
  { apply at_any. apply (ak_find_seeds b u Hub cfg Hpi Hai Hcl Hu32).
    - rewrite (rep_n _ _ _ H), Hlen. lia.
    - simpl. pose proof (Nat.div_le_upper_bound (c_n cl) (o_size o) (c_n cl)). nia. }
  intros [ec sr] w1 Hrun. destruct (decide (ec <> ER_OK)) as [|Hec]; [apply at_ret|].
  assert (ec = ER_OK) as -> by (destruct (decide (ec = ER_OK)); tauto). clear Hec.
  assert (exists ss sb, seed_st cfg sr ss sb /\ seeds_spec cfg (o_seed o) g ss) as (ss & sb & Hseed & Hspec).
  { eapply (run_sat anyub) in Hrun; [|apply (Msat_find_seeds cfg anyub dg g); auto; [by eapply nng_graph_nodup|by rewrite Hlen|]].
    - destruct Hrun as (_ & _ & Hgood & _). destruct (Hgood eq_refl) as (ss & sb & _ & _ & ? & ?). eauto.
    - intros _. right. split; [done|lia]. }
  assert (independent_maximal g ss) as Him. { destruct (seeds_spec_greedy _ _ _ _ Hspec) as (ord & Hp & ->). by apply greedy_independent_maximal. }
  assert (forall r1 r2 w2, askAt b w2 (cluster_seeds cfg P cl ds dg o sr r1 r2)) as Hfin.
  { intros r1 r2 w2. apply at_any. by eapply ask_cluster_seeds. }
  destruct (decide _); [|apply Hfin]. apply at_bind; [apply at_any; apply (ak_estimate b u Hub cfg Hpi Hai Hcl Hu32 P HPA); lia|].
  intros [ec avg] w2 _. destruct (decide (ec <> ER_OK)); [apply at_any; eapply ak_bind; [apply ak_free_arr|]; intros; by apply ak_ret|].
  destruct (use_estimate _ _) as [r1|]; [|apply at_any; eapply ak_bind; [apply ak_free_arr|]; intros; eapply ak_bind; [apply ak_make_error__|]; intros; by apply ak_ret].
  destruct (use_estimate _ _) as [r2|]; [|apply at_any; eapply ak_bind; [apply ak_free_arr|]; intros; eapply ak_bind; [apply ak_make_error__|]; intros; by apply ak_ret].
  apply Hfin.
Qed.

Lemma at_sc_clustering w : clu_ok c -> prim_readable o -> (options_valid o n -> options_sane o n) -> Forall (fun x => x <= u) (tcons_of o) ->
  askAt b w (sc_clustering cfg P ds (Some o) (Some c)).
Proof.
  intros Hok Hread Hsane Htc. unfold sc_clustering.
  assert (forall w0 ec msg f l, askAt b w0 (let* ec := make_error_msg ec msg f l in Mret (ec, Some c))) as Herr by (intros; apply at_err).
  destruct (is_initialized_clustering cfg (Some c)) eqn:Hi; cbn [negb]; [|apply Herr].
  rewrite (pk_check _ _ _ _ _ _ HP). cbn [negb]. rewrite (pk_num _ _ _ _ _ _ HP).
  destruct (decide (n <> c_n c)) as [Hn|Hn]; [apply Herr|].
  assert (c_n c = n) as Hn' by (destruct (decide (c_n c = n)); [done|exfalso; by apply Hn]). clear Hn. rewrite Hn'.
  assert (N.of_nat n <= pi_max cfg)%N as Hpn.
  { unfold is_initialized_clustering in Hi. rewrite Hn' in Hi. destruct (decide (c_version c <> clustering_version)); [done|]. destruct (decide (n = 0)); [done|].
    destruct (N.ltb_spec (pi_max cfg) (N.of_nat n)); [done|lia]. }
  assert (n <= u) as Hnu by lia.
  apply at_bind; [apply at_any, ak_check_options|]. intros ec w1 Hrun.
  destruct (decide (ec <> ER_OK)) as [|Hec]; [apply at_ret|].
  eapply (run_sat anyub) in Hrun; [|by apply Msat_check_options]. destruct Hrun as (_ & _ & [(_ & _ & Hv)|(Hne & _)]); [|by destruct Hec].
  specialize (Hsane Hv).
  destruct (decide (c_k c <> 0)); [apply Herr|].
  pose proof (ov_size _ _ Hv) as Hsize. pose proof (prim_ok_options o n Hv Hsane) as Hprim.
  destruct (decide (o_seed o = SM_BATCHES)) as [Hb|Hb].
  { apply at_any. eapply ak_bind; [apply (ak_batches b u Hub cfg Hpi Hai Hcl Hu32 P HPA); lia|]. intros. by apply ak_ret. }
  assert (is_Some (o_prim o) -> o_len_prim o <= u) as Hp by (intros Hp; pose proof (len_prim_le Hv Hsane Hp); lia).
  pose proof (os_size _ _ Hsane) as Hsz. rewrite seed_radius_of.
  apply at_bind.
  { apply at_any. destruct (decide (o_num_types o < 2)) as [Ht|Ht]; [apply (ak_get_nng_size b u Hub cfg Hpi Hai Hcl Hu32 P HPA); auto; lia|].
    assert (2 <= o_num_types o) as Ht2 by lia. destruct (ov_typed _ _ Hv Ht2) as (Hnt & [tc Etc] & _ & [tl Etl]). rewrite Etc, Etl. unfold tcons_of in Htc. rewrite Etc in Htc.
    apply (ak_get_nng_type b u Hub cfg Hpi Hai Hcl Hu32 P HPA); auto; unfold u32max in Hu32; lia. }
  intros [ec2 nng] w2 Hrun. destruct (decide (ec2 <> ER_OK)) as [|Hec2]; [apply at_ret|].
  assert (ec2 = ER_OK) as -> by (destruct (decide (ec2 = ER_OK)); tauto). clear Hec2.
  assert (exists g, dg_rep cfg nng g /\ nng_graph cfg o n G g) as (g & R & Hg).
  { destruct (decide (o_num_types o < 2)) as [Ht|Ht].
    - eapply (run_sat anyub) in Hrun; [|apply (Msat_size_nng cfg P V ds n G D HP); auto; lia]. destruct Hrun as (_ & Hg1 & _).
      destruct (Hg1 eq_refl) as (g & R & Hg & _). exists g. split; [done|]. unfold nng_graph. by rewrite decide_True.
    - assert (2 <= o_num_types o) as Ht2 by lia. destruct (ov_typed _ _ Hv Ht2) as (_ & [tc Etc] & _ & [tl Etl]). rewrite Etc, Etl in Hrun.
      pose proof (types_ok_options o n Hv Hsane Ht2) as Hty. destruct (os_sum _ _ Hsane Ht2) as [Hpos Hw32].
      assert (tcons_of o = tc) as Htc' by (unfold tcons_of; by rewrite Etc). assert (tlabels_of o = tl) as Htl by (unfold tlabels_of; by rewrite Etl).
      rewrite Htc' in Hty, Hpos, Hw32. rewrite Htl in Hty.
      eapply (run_sat anyub) in Hrun; [|apply (Msat_type_nng cfg P V ds n G D HP); auto; lia]. destruct Hrun as (_ & Hg1 & _).
      destruct (Hg1 eq_refl) as (g & R & Hg & _ & Hts & _). exists g. split; [done|]. unfold nng_graph. rewrite decide_False by done. rewrite Htc', Htl. exact (conj Hg Hts). }
  apply at_bind; [exact (at_from_nng c nng g w2 Hv Hsane R Hg Hb Hn' Hok Hpn)|]. intros [[ec3 c'] nng'] w3 _. apply at_any. eapply ak_bind; [apply (ak_free_digraph b u Hub cfg Hpi Hai Hcl Hu32)|]. intros. by apply ak_ret.
Qed.
End Sc.
