(** Assignment by search, and all assignment stages together
    (iscc_make_nng_clusters_from_seeds). *)

From stdpp Require Import prelude list sorting.
From Coq Require Import NArith ZArith.
From Verif Require Import Base World Mem Digraph DigraphRep DigraphOps DigraphDiff Float Spi Options Arrays GraphSpec SeedSpec AssignSpec Seeds SeedsProof SeedsExcl Nng NngGraph NngSize NngAssign.

Ltac wl := first [assumption | apply wle_refl | match goal with H : wle ?a _ |- wle ?a _ => refine (wle_trans _ _ _ H _); clear H; wl end].

(** ** Lists *)

Lemma by_search_lt G S T rad L L' k : by_search G S T rad L L' -> labels_lt k L -> labels_lt k L'.
Proof.
  intros [Hl H] Hk x i Hx. pose proof (lab_lt _ _ _ Hx) as Hxl. rewrite Hl in Hxl. specialize (H x Hxl).
  destruct (decide (x ∈ T /\ ~ assigned L x /\ feasible G S 1 rad x)); [destruct H as (y & _ & _ & H)|]; rewrite H in Hx; eauto.
Qed.

Lemma by_search_refl G S T rad L : (forall x, x ∈ T -> x < length L -> assigned L x) -> by_search G S T rad L L.
Proof.
  intros H. split; [done|]. intros x Hx. rewrite decide_False; [done|]. intros (H1 & H2 & _). auto.
Qed.

Lemma by_search_filter G S T rad L L' : by_search G S (filter (fun x => ~ assigned L x) T) rad L L' -> by_search G S T rad L L'.
Proof.
  intros [Hl H]. split; [done|]. intros x Hx. specialize (H x Hx).
  destruct (decide (x ∈ T /\ ~ assigned L x /\ feasible G S 1 rad x)) as [(H1 & H2 & H3)|Hn].
  - rewrite decide_True in H; [done|]. splits; auto. by apply elem_of_list_filter.
  - rewrite decide_False in H; [done|]. rewrite elem_of_list_filter. tauto.
Qed.

Lemma by_search_keeps G S T rad L L' x : by_search G S T rad L L' -> assigned L x -> lab L' x = lab L x.
Proof.
  intros [Hl H] Hx. destruct (decide (x < length L)) as [Hlt|Hge]; [|unfold assigned in Hx; rewrite lab_ge in Hx by lia; done].
  specialize (H x Hlt). rewrite decide_False in H by tauto. done.
Qed.

Lemma by_search_assigned G S T rad L L' x : by_search G S T rad L L' -> assigned L x -> assigned L' x.
Proof. intros H Hx. unfold assigned. erewrite by_search_keeps; eauto. Qed.

Lemma by_neighbors_lt g L k : labels_lt k L -> labels_lt k (by_neighbors g L).
Proof.
  intros Hk x i Hx. pose proof (lab_lt _ _ _ Hx) as Hxl. rewrite by_neighbors_length in Hxl. rewrite by_neighbors_lab in Hx by done.
  destruct (lab L x) eqn:E; [injection Hx as <-; eauto|]. apply neighbor_label_Some in Hx as (y & _ & Hy). eauto.
Qed.

Lemma by_neighbors_keeps g L x : assigned L x -> lab (by_neighbors g L) x = lab L x.
Proof.
  unfold assigned. intros Hx. destruct (decide (x < length L)) as [Hlt|Hge]; [|rewrite lab_ge in Hx by lia; done].
  rewrite by_neighbors_lab by done. by destruct (lab L x).
Qed.

Lemma search_ok_one G S Q rad ok nn : search_ok G S Q 1 rad ok nn ->
  Forall2 (fun q y => nearest G S 1 q [y] /\ within_opt G rad q y = true) ok nn.
Proof.
  intros (_ & cs & -> & H). induction H as [|q c ok cs [H1 H2] _ IH]; simpl; [constructor|].
  pose proof (nst_len _ _ _ _ _ H1) as Hl. destruct c as [|y [|]]; try done. simpl. constructor; [|done]. split; [done|]. by inversion H2.
Qed.

Section Stage.
Context (cfg : config) (Hcfg : config_ok cfg) (P : provider) (V : pview P) (ds : p_ds P) (n : nat) (G : geometry) (D : dist_fun).
Hypothesis (HP : provider_ok P V ds n G D).
Notation solid w := (no_fail w /\ provider_reliable P V ds n).
Notation dg_rep := (dg_rep cfg).
Notation enc := (enc cfg).

(** ** Writing found labels *)

Lemma write_labels_sat B b L S U rad ok nn qb qc nb nc k :
  NoDup U -> (forall x, x ∈ U -> x < length L /\ ~ assigned L x) -> (forall x, x ∈ S -> x < length L /\ assigned L x) ->
  labels_lt k L -> (N.of_nat k <= cl_max cfg)%N ->
  search_ok G S U 1 rad ok nn -> filled qc ok -> filled nc nn ->
  Rsat B (forR (length ok) 0 (farr b (enc <$> L)) (fun i lab =>
        let! q := aget (Some (Arr qb qc)) i in
        let! x := aget (Some (Arr nb nc)) i in
        let! l := aget lab x in
        aset lab q l)) (fun o => exists L', o = farr b (enc <$> L') /\ by_search G S U rad L L').
Proof.
  intros HndU HU HS Hlt Hk Hs Hfq Hfn. pose proof (search_ok_one _ _ _ _ _ _ Hs) as H2. destruct Hs as [Hok _].
  assert (NoDup ok) as Hndok by (rewrite Hok; by apply NoDup_filter).
  assert (forall x, x ∈ ok <-> x ∈ U /\ feasible G S 1 rad x) as Hin.
  { intros x. rewrite Hok, elem_of_list_filter. unfold feasible. tauto. }
  clear Hok. assert (forall x, x ∈ nn -> x ∈ S) as HnS.
  { intros y Hy. apply elem_of_list_lookup in Hy as [j Hj]. destruct (Forall2_lookup_r _ _ _ _ _ H2 Hj) as (q & _ & Hn & _).
    eapply elem_of_submseteq; [|apply (nst_sub _ _ _ _ _ Hn)]. set_solver. }
  apply (forR_sat0 B (fun i o => exists Li, o = farr b (enc <$> Li) /\ length Li = length L /\
    (forall j x, j < i -> ok !! j = Some x -> exists y, nn !! j = Some y /\ lab Li x = lab L y) /\
    (forall x, x ∉ take i ok -> lab Li x = lab L x))).
  - exists L. splits; auto. lia.
  - intros i o Hi (Li & -> & HLi & Hdone & Hrest).
    destruct (lookup_lt_is_Some_2 ok i Hi) as [q Hq]. destruct (Forall2_lookup_l _ _ _ _ _ H2 Hq) as (y & Hy & _).
    rewrite (aget_cells _ _ _ q) by (by eapply filled_lookup). cbn [Rbind].
    rewrite (aget_cells _ _ _ y) by (by eapply filled_lookup). cbn [Rbind].
    assert (y ∈ S) as HyS by (apply HnS; by eapply elem_of_list_lookup_2). destruct (HS y HyS) as [Hyl Hya].
    assert (q ∈ ok) as Hqok by (by eapply elem_of_list_lookup_2). destruct (HU q) as [Hql Hqa]; [by apply Hin|].
    assert (y ∉ ok) as Hyok. { intros Hx. apply Hin in Hx as [Hx _]. apply HU in Hx as [_ Hx]. tauto. }
    assert (lab Li y = lab L y) as Ey. { apply Hrest. intros Hx. apply Hyok. apply elem_of_take in Hx as (j & Hx & _). by eapply elem_of_list_lookup_2. }
    rewrite aget_enc by lia. cbn [Rbind]. rewrite aset_farr by (rewrite fmap_length; lia). cbn [Rsat].
    rewrite <- list_fmap_insert, Ey. eexists. split; [done|]. split; [by rewrite insert_length|]. split.
    + intros j x Hj Hx. destruct (decide (x = q)) as [->|Hne].
      * assert (j = i) as -> by (by eapply NoDup_lookup). exists y. split; [done|]. unfold lab at 1. by rewrite list_lookup_insert by lia.
      * assert (j <> i) by (intros ->; congruence). destruct (Hdone j x) as (y' & Hy' & E); [lia|done|]. exists y'. split; [done|].
        unfold lab at 1. rewrite list_lookup_insert_ne by done. exact E.
    + intros x Hx. rewrite (take_S_r _ _ _ Hq) in Hx. apply not_elem_of_app in Hx as [Hx1 Hx2].
      unfold lab at 1. rewrite list_lookup_insert_ne by set_solver. by apply Hrest.
  - intros o (Li & -> & HLi & Hdone & Hrest). rewrite firstn_all in Hrest. exists Li. split; [done|]. split; [done|].
    intros x Hx. case_decide as Hd.
    + destruct Hd as (HxU & _ & Hxf). assert (x ∈ ok) as Hxok by (by apply Hin). apply elem_of_list_lookup in Hxok as [j Hj].
      destruct (Hdone j x) as (y & Hy & E); [by eapply lookup_lt_Some|done|]. exists y. destruct (Forall2_lookup_lr _ _ _ _ _ _ H2 Hj Hy) as [Hn1 Hn2]. auto.
    + apply Hrest. intros Hxo. apply Hd. apply Hin in Hxo as [HxU Hxf]. splits; auto. by apply HU.
Qed.

(** ** One search *)

Lemma Msat_nn_search_null (B : ub -> Prop) o lenq q Q k rad outq w :
  nn_good V o -> (forall x, cnt x (nn_blk V o) <= cnt x (w_live w)) ->
  argcells q lenq Q -> Q <> [] -> Forall (fun x => x < n) Q ->
  0 < k -> k <= length (nn_set V o) -> B NullPtr ->
  Msat B (nn_search P o lenq q k rad outq None) w (fun r w' =>
    wle w w' /\ own w' [] w /\ w_err w' = w_err w /\ r = None /\ ~ solid w).
Proof.
  intros Hg Hb Hq Hne Hlt Hk Hks HB. unfold nn_search. apply Msat_bind, Msat_lift.
  eapply Rsat_mono; [by apply read_idx_arg|]. intros qs (H1 & H2 & _).
  pose proof (argcells_length _ _ _ Hq) as HlQ.
  assert (query_list n qs) as Hql. { unfold query_list. rewrite H2, H1. auto. }
  pose proof (pk_nn_search _ _ _ _ _ _ HP w o qs k rad Hg Hql Hk Hks Hb) as Hs.
  apply Msat_bind. unfold Msat at 1. unfold Msat at 1 in Hs. destruct (p_nn_search P o qs k rad w) as [[r w']|u] eqn:E; [|by destruct Hs].
  simpl in *. destruct Hs as [(L & O & Er) Hs]. destruct r as [[ok nn]|].
  - apply Msat_bind, Msat_lift. simpl. done.
  - apply Msat_ret. splits; auto. intros [F Hr].
    pose proof (rel_nn_search _ _ _ _ Hr w o qs k rad Hg Hql Hk Hks F) as Hx. unfold Msat in Hx. rewrite E in Hx. by apply Hx.
Qed.

Definition search_fail (w : world) (ec : ecode) (w' : world) : Prop :=
  e_code (w_err w') = ec /\ ((ec = ER_NO_MEMORY /\ ~ no_fail w) \/ (ec = ER_DIST_SEARCH_ERROR /\ ~ solid w)).

Lemma search_fail_wle w0 w ec w' : wle w0 w -> search_fail w ec w' -> search_fail w0 ec w'.
Proof.
  intros L (H1 & [[-> H2]|[-> H2]]); split; auto; [left|right]; split; auto; intros F; apply H2; [by eapply no_fail_wle|].
  by eapply solid_wle.
Qed.

Lemma Msat_assign_by_nn_search (B : ub -> Prop) cl b L k o S U tb tc rad w :
  nn_good V o -> (forall x, cnt x (nn_blk V o) <= cnt x (w_live w)) -> nn_set V o = S -> S <> [] ->
  c_label cl = farr b (enc <$> L) -> length L = n -> labels_lt k L -> (N.of_nat k <= cl_max cfg)%N ->
  NoDup U -> U <> [] -> (forall x, x ∈ U -> x < n /\ ~ assigned L x) -> (forall x, x ∈ S -> x < n /\ assigned L x) ->
  filled tc U -> (no_fail w \/ B NullPtr) ->
  Msat B (assign_by_nn_search P cl o (length U) (Some (Arr tb tc)) rad) w (fun '(ec, cl', ta') w' =>
    wle w w' /\ own w' [] w /\ (exists tc', ta' = Some (Arr tb tc') /\ length tc' = length tc) /\
    ((ec = ER_OK /\ w_err w' = w_err w /\ exists L', cl' = set_label cl (farr b (enc <$> L')) /\ by_search G S U rad L L') \/
     (ec <> ER_OK /\ cl' = cl /\ search_fail w ec w'))).
Proof.
  intros Hg Hb HS HneS Hl HL Hlt Hk HndU HneU HU HSa Hf HB. unfold assign_by_nn_search.
  assert (Forall (fun x => x < n) U) as HUn by (apply Forall_forall; intros x Hx; by apply HU).
  assert (argcells (acells (Some (Arr tb tc))) (length U) U) as Harg by done.
  assert (1 <= length (nn_set V o)) as H1 by (rewrite HS; destruct S; [done|simpl; lia]).
  apply Msat_bind, Msat_malloc_arr.
  { intros w1 L1 O1 E1 _ F1. assert (B NullPtr) as HBn by tauto. apply Msat_bind. eapply Msat_mono.
    { apply (Msat_nn_search_null B o _ _ U); auto. blk. }
    intros r w2 (L2 & O2 & E2 & -> & Hns). apply Msat_bind, Msat_free_arr; [blk|]. intros w3 L3 C3 E3 _.
    apply Msat_bind, Msat_make_error__. intros w4 L4 O4 E4 _. apply Msat_ret.
    split; [wl|]. split; [blk|]. split; [eauto|]. right. splits; auto. split; [by rewrite E4|]. right. split; [done|].
    intros [F _]. tauto. }
  intros w1 nb L1 O1 E1 _. apply Msat_bind. eapply Msat_mono.
  { apply (Msat_nn_search P V ds n G D HP B o _ _ U); auto; [blk| |].
    - destruct rad; [|done]. exists tb, tc. split; [done|]. by apply filled_length.
    - unfold fresh. rewrite replicate_length. lia. }
  intros r w2 (L2 & O2 & E2 & Hr). destruct r as [[[num oq] onn]|].
  2:{ apply Msat_bind, Msat_free_arr; [blk|]. intros w3 L3 C3 E3 _.
      apply Msat_bind, Msat_make_error__. intros w4 L4 O4 E4 _. apply Msat_ret.
      split; [wl|]. split; [blk|]. split; [eauto|]. right. splits; auto. split; [by rewrite E4|]. right. split; [done|].
      intros F. apply Hr. by eapply solid_wle. }
  destruct Hr as (ok & nn & Hs & -> & (nb' & nc & nc' & Enb & -> & Hfn & Hln) & Hoq). injection Enb as <- <-.
  assert (exists qc, match oq with Some b => b | None => Some (Arr tb tc) end = Some (Arr tb qc) /\ length qc = length tc /\ filled qc ok) as (qc & -> & Hlq & Hfq).
  { destruct rad as [r|], oq as [oq|]; try done.
    - destruct Hoq as (b' & c & c' & E & -> & Hf' & Hl'). injection E as <- <-. eauto.
    - exists tc. splits; auto. destruct Hs as [-> _]. rewrite list_filter_all; [done|].
      apply Forall_forall. intros x _. rewrite (list_filter_all _ (nn_set V o)); [done|]. by apply Forall_forall. }
  rewrite HS in Hs. apply Msat_bind, Msat_lift. rewrite Hl. eapply Rsat_mono.
  { apply (write_labels_sat B b L S U rad ok nn tb qc nb nc' k); auto; by rewrite HL. }
  intros ol (L' & -> & Hbs). apply Msat_bind, Msat_free_arr; [blk|]. intros w3 L3 C3 E3 _. apply Msat_ret.
  split; [wl|]. split; [blk|]. split; [eauto|]. left. splits; auto; [congruence|]. eauto.
Qed.

(** ** Stages *)

Notation stage := (stage G).

Lemma stage_lt um Sa Ss T rad L L' k : stage um Sa Ss T rad L L' -> labels_lt k L -> labels_lt k L'.
Proof. destruct um; simpl; try (intros ->; done); apply by_search_lt. Qed.
Lemma stage_length um Sa Ss T rad L L' : stage um Sa Ss T rad L L' -> length L' = length L.
Proof. destruct um; simpl; try (intros ->; done); intros [? _]; done. Qed.
Lemma stage_keeps um Sa Ss T rad L L' x : stage um Sa Ss T rad L L' -> assigned L x -> lab L' x = lab L x.
Proof. destruct um; simpl; try (intros ->; done); apply by_search_keeps. Qed.
Lemma stage_assigned um Sa Ss T rad L L' x : stage um Sa Ss T rad L L' -> assigned L x -> assigned L' x.
Proof. intros H Hx. unfold assigned. erewrite stage_keeps; eauto. Qed.

(** Search object for [S], if it is used. *)
Definition obj_ok (use : bool) (S : list nat) (o : option (p_nn P)) : Prop :=
  match o with
  | None => use = false
  | Some o => nn_good V o /\ nn_set V o = S
  end.
Definition obj_blk (o : option (p_nn P)) : list nat := match o with Some o => nn_blk V o | None => [] end.

Lemma Msat_close_opt B use S o w (Q : unit -> world -> Prop) : obj_ok use S o -> (forall x, cnt x (obj_blk o) <= cnt x (w_live w)) ->
  (forall w', wle w w' -> (forall x, cnt x (w_live w) = cnt x (obj_blk o) + cnt x (w_live w')) -> w_err w' = w_err w -> Q tt w') ->
  Msat B (close_opt P o) w Q.
Proof.
  destruct o as [o|]; simpl; intros Ho Hb HQ.
  - destruct Ho as [Hg _]. apply Msat_bind. eapply Msat_mono; [apply (Msat_close P V ds n G D HP); auto|].
    intros r w' (L & E & C & _). apply Msat_ret. auto.
  - apply Msat_ret. apply HQ; auto.
Qed.

Record pool (Sa Ss : list nat) (L : labels) : Prop := {
  po_a : forall x, x ∈ Sa -> x < n /\ assigned L x;
  po_s : forall x, x ∈ Ss -> x < n /\ assigned L x;
  po_ane : Sa <> [];
  po_sne : Ss <> []
}.

Lemma pool_keep Sa Ss L L' : pool Sa Ss L -> (forall x, assigned L x -> assigned L' x) -> pool Sa Ss L'.
Proof. intros [H1 H2 H3 H4] H. constructor; auto; intros x Hx; [apply H1 in Hx|apply H2 in Hx]; naive_solver. Qed.

Lemma Msat_assign_stage (B : ub -> Prop) cl b L k um ua us Sa Ss oa os T tb tc rad w :
  obj_ok ua Sa oa -> obj_ok us Ss os ->
  (um = UM_CLOSEST_ASSIGNED -> ua = true) -> (um = UM_CLOSEST_SEED -> us = true) ->
  (forall x, cnt x (obj_blk oa ++ obj_blk os) <= cnt x (w_live w)) -> pool Sa Ss L ->
  c_label cl = farr b (enc <$> L) -> length L = n -> labels_lt k L -> (N.of_nat k <= cl_max cfg)%N ->
  NoDup T -> Forall (fun x => x < n) T -> filled tc (filter (fun x => ~ assigned L x) T) -> (no_fail w \/ B NullPtr) ->
  Msat B (assign_stage P cl um oa os (length (filter (fun x => ~ assigned L x) T)) (Some (Arr tb tc)) rad) w (fun '(ec, cl', ta') w' =>
    wle w w' /\ own w' [] w /\ (exists tc', ta' = Some (Arr tb tc') /\ length tc' = length tc) /\
    ((ec = ER_OK /\ w_err w' = w_err w /\ exists L', cl' = set_label cl (farr b (enc <$> L')) /\ stage um Sa Ss T rad L L') \/
     (ec <> ER_OK /\ cl' = cl /\ search_fail w ec w'))).
Proof.
  intros Hoa Hos Hua Hus Hb [Ha Hs Hane Hsne] Hl HL Hlt Hk HndT HTn Hf HB. unfold assign_stage.
  remember (filter (fun x => ~ assigned L x) T) as U eqn:EU.
  assert (set_label cl (farr b (enc <$> L)) = cl) as Hcl by (unfold set_label; rewrite <- Hl; by destruct cl).
  assert (forall um, um <> UM_CLOSEST_ASSIGNED -> um <> UM_CLOSEST_SEED -> stage um Sa Ss T rad L L) as Hnone by (intros []; done).
  assert (forall x, x ∈ U -> x < n /\ ~ assigned L x) as HU.
  { intros x. rewrite EU, elem_of_list_filter. rewrite Forall_forall in HTn. intros [? ?]. auto. }
  assert (NoDup U) as HndU by (rewrite EU; by apply NoDup_filter).
  destruct (decide (0 < length U)) as [Hpos|Hzero].
  - assert (U <> []) as HneU by (intros ->; simpl in Hpos; lia).
    destruct um; try (apply Msat_ret; split; [eauto|]; split; [blk|]; split; [eauto|]; left; splits; auto; exists L; rewrite Hcl; auto; fail).
    + destruct oa as [o|]; [|exfalso; simpl in Hoa; rewrite Hua in Hoa; done]. destruct Hoa as [Hg HSo].
      eapply Msat_mono.
      { apply (Msat_assign_by_nn_search B cl b L k o Sa U tb tc rad); auto. simpl in Hb. blk. }
      intros [[ec cl'] ta'] w' (L1 & O1 & T1 & [(-> & E1 & L' & -> & Hbs)|H]); splits; auto.
      left. splits; auto. exists L'. split; [done|]. simpl. apply by_search_filter. by rewrite <- EU.
    + destruct os as [o|]; [|exfalso; simpl in Hos; rewrite Hus in Hos; done]. destruct Hos as [Hg HSo].
      eapply Msat_mono.
      { apply (Msat_assign_by_nn_search B cl b L k o Ss U tb tc rad); auto. simpl in Hb. blk. }
      intros [[ec cl'] ta'] w' (L1 & O1 & T1 & [(-> & E1 & L' & -> & Hbs)|H]); splits; auto.
      left. splits; auto. exists L'. split; [done|]. simpl. apply by_search_filter. by rewrite <- EU.
  - apply Msat_ret; split; [eauto|]; split; [blk|]; split; [eauto|]; left; splits; auto; exists L; rewrite Hcl. split; [done|].
    assert (U = []) as HU0 by (destruct U; [done|simpl in Hzero; lia]).
    assert (forall S, by_search G S T rad L L) as Hr.
    { intros S. apply by_search_refl. intros x HxT _. destruct (decide (assigned L x)) as [|Hna]; [done|]. exfalso.
      assert (x ∈ U) as Hx by (rewrite EU; by apply elem_of_list_filter). rewrite HU0 in Hx. by apply elem_of_nil in Hx. }
    destruct um; simpl; auto.
Qed.

(** The labels stay in place if the stage is left out. *)
Lemma Msat_assign_rest (B : ub -> Prop) cl b L k total um1 rad1 len_prim prim um2 rad2 sn oa os Sa Ss w :
  obj_ok (uses UM_CLOSEST_ASSIGNED um1 um2) Sa oa -> obj_ok (uses UM_CLOSEST_SEED um1 um2) Ss os ->
  (forall x, cnt x (arr_blk sn ++ obj_blk oa ++ obj_blk os) <= cnt x (w_live w)) -> pool Sa Ss L ->
  c_n cl = n -> c_label cl = farr b (enc <$> L) -> length L = n -> labels_lt k L -> (N.of_nat k <= cl_max cfg)%N ->
  prim_ok n len_prim prim ->
  (total = nassigned L \/ (B Oob /\ B Arith)) -> (no_fail w \/ B NullPtr) ->
  Msat B (assign_rest cfg P cl total um1 rad1 len_prim prim um2 rad2 sn oa os) w (fun '(ec, cl') w' =>
    wle w w' /\ own w (arr_blk sn ++ obj_blk oa ++ obj_blk os) w' /\
    ((ec = ER_OK /\ (w_err w' = w_err w \/ ~ solid w) /\ exists L1 L2, cl' = set_label cl (farr b (enc <$> L2)) /\
        stage um1 Sa Ss (prim_list n len_prim prim) rad1 L L1 /\
        (stage um2 Sa Ss (seq 0 n) rad2 L1 L2 \/ (L2 = L1 /\ ~ solid w))) \/
     (ec <> ER_OK /\ cl' = cl /\ search_fail w ec w'))).
Proof.
  intros Hoa Hos Hb Hpool Hn Hl HL Hlt Hk Hprim Htot HB. unfold assign_rest. rewrite Hn.
  destruct (decide (n + 1 < total)) as [Hbig|Hbig].
  { destruct Htot as [->|[_ HBA]]; [pose proof (nassigned_le L); lia|]. exact HBA. }
  assert (forall m, (um1 = m -> uses m um1 um2 = true) /\ (um2 = m -> uses m um1 um2 = true)) as Huse.
  { intros m. unfold uses. rewrite bool_decide_eq_true. auto. }
  pose proof (proj1 (Huse UM_CLOSEST_ASSIGNED)) as Hu1a. pose proof (proj1 (Huse UM_CLOSEST_SEED)) as Hu1s.
  pose proof (proj2 (Huse UM_CLOSEST_ASSIGNED)) as Hu2a. pose proof (proj2 (Huse UM_CLOSEST_SEED)) as Hu2s.
  apply Msat_bind, Msat_malloc_arr.
  { intros w1 L1 O1 E1 _ F1. apply Msat_bind, Msat_free_arr; [blk|]. intros w2 L2 C2 E2 _.
    apply Msat_bind. eapply Msat_close_opt; [exact Hoa|blk|]. intros w3 L3 C3 E3.
    apply Msat_bind. eapply Msat_close_opt; [exact Hos|blk|]. intros w4 L4 C4 E4.
    apply Msat_bind, Msat_make_error__. intros w5 L5 O5 E5 _. apply Msat_ret. split; [wl|]. split; [blk|].
    right. splits; auto. split; [by rewrite E5|]. left. auto. }
  intros w1 tb L1 O1 E1 _. set (T := prim_list n len_prim prim) in *.
  assert (NoDup T /\ Forall (fun x => x < n) T) as [HndT HTn]. { destruct Hprim as (_ & _ & Hs & Hf). split; [by apply sorted_NoDup|done]. }
  assert (forall T' L', NoDup T' -> Forall (fun x => x < n) T' -> length L' = n -> (forall x, assigned L x -> assigned L' x) ->
    length (filter (fun x => ~ assigned L' x) T') < n + 1 - total \/ B Oob) as Hroom.
  { intros T' L' Hnd' HT' HL' Hm. destruct Htot as [->|[HBO _]]; [left|by right].
    pose proof (filter_count_le (fun x => ~ assigned L' x) T' n Hnd' HT') as H1.
    assert (length (filter (fun x => ~ assigned L' x) (seq 0 n)) <= length (filter (fun x => ~ assigned L x) (seq 0 n))) as H2.
    { apply submseteq_length, NoDup_submseteq; [apply NoDup_filter, NoDup_seq|]. intros x. rewrite !elem_of_list_filter. intuition. }
    pose proof (unassigned_count L) as H3. rewrite HL in H3. pose proof (nassigned_le L). lia. }
  apply Msat_bind, Msat_lift. eapply (Rsat_mono B _ (fun '(ta, num) =>
    num = length (filter (fun x => ~ assigned L x) T) /\
    exists c', ta = Some (Arr tb c') /\ length c' = n + 1 - total /\ filled c' (filter (fun x => ~ assigned L x) T))).
  { rewrite Hl. assert (length (fresh nat (n + 1 - total)) = n + 1 - total) as Hfr by (unfold fresh; by rewrite replicate_length).
    generalize dependent (fresh nat (n + 1 - total)). intros c0 Hfr. specialize (Hroom T L HndT HTn HL (fun _ H => H)).
    destruct Hprim as (Hlen & _). destruct prim as [p|]; simpl in T.
    - rewrite <- Hfr in Hroom |- *. apply (collect_unassigned_sat cfg Hcfg B b L k); auto.
      + unfold T. rewrite take_length. lia.
      + intros i x Hx. unfold T in Hx. apply lookup_take_Some in Hx as [Hx _]. by apply lget_ok.
      + by rewrite HL.
    - rewrite <- Hfr in Hroom |- *. apply (collect_unassigned_sat cfg Hcfg B b L k); auto.
      + unfold T. by rewrite seq_length.
      + intros i x Hx. unfold T in Hx. apply lookup_seq in Hx as [-> _]. done.
      + by rewrite HL. }
  intros [ta num] (-> & tc & -> & Htc & Hft).
  apply Msat_bind. eapply Msat_mono.
  { apply (Msat_assign_stage B cl b L k um1 _ _ Sa Ss oa os T tb tc rad1 w1 Hoa Hos); auto; [blk|].
    destruct HB as [HB|HB]; [left; by eapply no_fail_wle|by right]. }
  intros [[ec cl1] ta1] w2 (L2 & O2 & (tc1 & -> & Htc1) & [(-> & E2 & La & -> & Hst)|(Hec & -> & Hfail)]).
  2:{ rewrite decide_True by done. apply Msat_bind, Msat_free_arr; [blk|]. intros w3 L3 C3 E3 _.
      apply Msat_bind, Msat_free_arr; [blk|]. intros w4 L4 C4 E4 _.
      apply Msat_bind. eapply Msat_close_opt; [exact Hoa|blk|]. intros w5 L5 C5 E5.
      apply Msat_bind. eapply Msat_close_opt; [exact Hos|blk|]. intros w6 L6 C6 E6. apply Msat_ret.
      split; [wl|]. split; [blk|]. right. splits; auto. eapply search_fail_wle; [exact L1|].
      destruct Hfail as [H1 H2]. split; [|done]. congruence. }
  rewrite decide_False by tauto.
  pose proof (stage_length _ _ _ _ _ _ _ Hst) as HLa. rewrite HL in HLa. pose proof (stage_lt _ _ _ _ _ _ _ k Hst Hlt) as Hlta.
  assert (forall x, assigned L x -> assigned La x) as Hkeep by (intros x; by eapply stage_assigned).
  pose proof (pool_keep _ _ _ _ Hpool Hkeep) as Hpoola.
  apply Msat_bind. apply (Msat_mono _ _ _ (fun '(cl', ta') w' => wle w2 w' /\ own w' [] w2 /\ arr_blk ta' = [tb] /\
    (w_err w' = w_err w2 \/ ~ solid w2) /\
    exists L2, cl' = set_label cl (farr b (enc <$> L2)) /\ (stage um2 Sa Ss (seq 0 n) rad2 La L2 \/ (L2 = La /\ ~ solid w2)))).
  - destruct (decide (um2 <> UM_IGNORE)) as [Hign|Hign].
    + specialize (Hroom (seq 0 n) La (NoDup_seq _ _) ltac:(apply Forall_forall; intros x Hx%elem_of_seq; lia) HLa Hkeep).
      apply Msat_bind, Msat_lift. eapply Rsat_mono.
      { rewrite <- Htc, <- Htc1 in Hroom. cbn [set_label c_label].
        apply (collect_unassigned_sat cfg Hcfg B b La k n (fun i => Ok i) (seq 0 n) tb tc1); auto.
        - by rewrite seq_length.
        - intros i x Hx. apply lookup_seq in Hx as [-> _]. done.
        - rewrite HLa. apply Forall_forall. intros x Hx%elem_of_seq. lia. }
      intros [ta num] (-> & tc2 & -> & Htc2 & Hft2). apply Msat_bind. eapply Msat_mono.
      { apply (Msat_assign_stage B _ b La k um2 _ _ Sa Ss oa os (seq 0 n) tb tc2 rad2 w2 Hoa Hos); auto; [blk|apply NoDup_seq| |].
        - apply Forall_forall. intros x Hx%elem_of_seq. lia.
        - destruct HB as [HB|HB]; [left|by right]. eapply no_fail_wle; [exact HB|]. eauto. }
      intros [[ec cl2] ta2] w3 (L3 & O3 & (tc3 & -> & _) & [(-> & E3 & Lb & -> & Hst2)|(Hec & -> & Hfail)]); apply Msat_ret.
      * splits; auto. exists Lb. split; [done|]. by left.
      * assert (~ solid w2) as Hns by (destruct Hfail as [_ [[_ ?]|[_ ?]]]; tauto). splits; auto. exists La. split; [done|]. by right.
    + apply Msat_ret. splits; auto; [blk|]. exists La. split; [done|]. left. assert (um2 = UM_IGNORE) as -> by (by apply dec_stable). done.
  - intros [cl2 ta2] w3 (L3 & O3 & Hta & E3 & Lb & -> & Hst2).
    apply Msat_bind, Msat_free_arr; [blk|]. intros w4 L4 C4 E4 _.
    apply Msat_bind, Msat_free_arr; [rewrite Hta; blk|]. intros w5 L5 C5 E5 _. rewrite Hta in C5.
    apply Msat_bind. eapply Msat_close_opt; [exact Hoa|blk|]. intros w6 L6 C6 E6.
    apply Msat_bind. eapply Msat_close_opt; [exact Hos|blk|]. intros w7 L7 C7 E7. apply Msat_ret.
    assert (~ solid w2 -> ~ solid w) as Hns. { intros H HS. apply H. eapply solid_wle; [|exact HS]. eauto. }
    split; [wl|]. split; [clear Hta; blk|]. left. split; [done|]. split.
    { destruct E3 as [E3|E3]; [left; congruence|right; auto]. }
    exists La, Lb. splits; auto. destruct Hst2 as [?|[? ?]]; auto.
Qed.

Lemma Msat_assign_search (B : ub -> Prop) cl b L k sr ss sb total um1 rad1 len_prim prim um2 rad2 sn Sa w :
  seed_st cfg sr ss sb -> NoDup ss -> (uses UM_CLOSEST_ASSIGNED um1 um2 = true -> argcells (acells sn) (length Sa) Sa) -> NoDup Sa ->
  (forall x, cnt x (arr_blk sn) <= cnt x (w_live w)) -> pool Sa ss L ->
  c_n cl = n -> c_label cl = farr b (enc <$> L) -> length L = n -> labels_lt k L -> (N.of_nat k <= cl_max cfg)%N ->
  prim_ok n len_prim prim ->
  (total = nassigned L \/ (B Oob /\ B Arith)) -> (no_fail w \/ B NullPtr) ->
  Msat B (assign_search cfg P ds cl sr (length Sa) total um1 rad1 len_prim prim um2 rad2 sn) w (fun '(ec, cl') w' =>
    wle w w' /\ own w (arr_blk sn) w' /\
    ((ec = ER_OK /\ (w_err w' = w_err w \/ ~ solid w) /\ exists L1 L2, cl' = set_label cl (farr b (enc <$> L2)) /\
        stage um1 Sa ss (prim_list n len_prim prim) rad1 L L1 /\
        (stage um2 Sa ss (seq 0 n) rad2 L1 L2 \/ (L2 = L1 /\ ~ solid w))) \/
     (ec <> ER_OK /\ cl' = cl /\ search_fail w ec w'))).
Proof.
  intros Hsr Hnds Hsn HndS Hb Hpool Hn Hl HL Hlt Hk Hprim Htot HB. unfold assign_search.
  assert (forall S, (forall x, x ∈ S -> x < n /\ assigned L x) -> Forall (fun x => x < n) S) as Hfa.
  { intros S HS. apply Forall_forall. intros x Hx. by apply HS. }
  set (ua := uses UM_CLOSEST_ASSIGNED um1 um2) in *. set (us := uses UM_CLOSEST_SEED um1 um2).
  apply Msat_bind. apply (Msat_mono _ _ _ (fun '(ec, oa) w' => wle w w' /\ own w' (obj_blk oa) w /\
    ((ec = ER_OK /\ w_err w' = w_err w /\ obj_ok ua Sa oa) \/ (ec <> ER_OK /\ oa = None /\ search_fail w ec w')))).
  { destruct ua.
    - apply Msat_bind. eapply Msat_mono.
      { apply (Msat_nn_init P V ds n G D HP B _ _ Sa); auto; [apply Hpool|apply Hfa, Hpool]. }
      intros [o|] w1 (L1 & E1 & H1); [destruct H1 as (O1 & Hg & HS)|destruct H1 as (O1 & Hns)].
      + apply Msat_ret. splits; auto. left. splits; auto. done.
      + apply Msat_bind, Msat_make_error__. intros w2 L2 O2 E2 _. apply Msat_ret. split; [wl|]. split; [blk|].
        right. splits; auto. split; [by rewrite E2|]. right. auto.
    - apply Msat_ret. splits; auto; [blk|]. left. splits; auto. done. }
  intros [ec oa] w1 (L1 & O1 & [(-> & E1 & Hoa)|(Hec & -> & Hfail)]).
  2:{ rewrite decide_True by done. apply Msat_bind, Msat_free_arr; [blk|]. intros w2 L2 C2 E2 _. apply Msat_ret.
      split; [wl|]. split; [blk|]. right. splits; auto. destruct Hfail as [? ?]. split; [congruence|done]. }
  rewrite decide_False by tauto.
  apply Msat_bind. apply (Msat_mono _ _ _ (fun '(ec, os) w' => wle w1 w' /\ own w' (obj_blk os) w1 /\
    ((ec = ER_OK /\ w_err w' = w_err w1 /\ obj_ok us ss os) \/ (ec <> ER_OK /\ os = None /\ search_fail w1 ec w')))).
  { destruct us.
    - destruct Hsr as (sc & Es & Hsf & Hcnt & _). rewrite Es, Hcnt. apply Msat_bind. eapply Msat_mono.
      { apply (Msat_nn_init P V ds n G D HP B _ _ ss); auto; [done|apply Hpool|apply Hfa, Hpool]. }
      intros [o|] w2 (L2 & E2 & H2); [destruct H2 as (O2 & Hg & HS)|destruct H2 as (O2 & Hns)].
      + apply Msat_ret. splits; auto. left. splits; auto. done.
      + apply Msat_bind, Msat_make_error__. intros w3 L3 O3 E3 _. apply Msat_ret. split; [wl|]. split; [blk|].
        right. splits; auto. split; [by rewrite E3|]. right. auto.
    - apply Msat_ret. splits; auto; [blk|]. left. splits; auto. done. }
  intros [ec os] w2 (L2 & O2 & [(-> & E2 & Hos)|(Hec & -> & Hfail)]).
  2:{ rewrite decide_True by done. apply Msat_bind, Msat_free_arr; [blk|]. intros w3 L3 C3 E3 _.
      apply Msat_bind. eapply Msat_close_opt; [exact Hoa|blk|]. intros w4 L4 C4 E4. apply Msat_ret.
      split; [wl|]. split; [blk|]. right. splits; auto. eapply search_fail_wle; [exact L1|].
      destruct Hfail as [? ?]. split; [congruence|done]. }
  rewrite decide_False by tauto. eapply Msat_mono.
  { apply (Msat_assign_rest B cl b L k total um1 rad1 len_prim prim um2 rad2 sn oa os Sa ss); auto; [blk|].
    destruct HB as [HB|HB]; [left|by right]. eapply no_fail_wle; [exact HB|]. eauto. }
  intros [ec cl'] w3 (L3 & O3 & H3). split; [wl|]. split; [blk|].
  assert (~ solid w2 -> ~ solid w) as Hns. { intros H HS. apply H. eapply solid_wle; [|exact HS]. eauto. }
  destruct H3 as [(-> & E3 & La & Lb & -> & Hs1 & Hs2)|(Hec & -> & Hfail)].
  - left. split; [done|]. split; [destruct E3 as [E3|E3]; [left; congruence|auto]|]. exists La, Lb. splits; auto.
    destruct Hs2 as [?|[? ?]]; auto.
  - right. splits; auto. eapply search_fail_wle; [|exact Hfail]. eauto.
Qed.

(** ** All stages *)

Lemma collect_assigned_sat B b L k sb :
  labels_lt k L -> (N.of_nat k <= cl_max cfg)%N -> length L = n ->
  Rsat B (forR n 0 (Some (Arr sb (fresh nat (nassigned L))), 0) (fun i '(sn, wr) =>
             let! l := aget (farr b (enc <$> L)) i in
             if decide (l <> cl_na cfg) then
               let! sn := aset sn wr i in Ok (sn, wr + 1)
             else Ok (sn, wr))) (fun r => r.1 = farr sb (filter (assigned L) (seq 0 n))).
Proof.
  intros Hlt Hk HL.
  assert (forall x, enc (lab L x) = cl_na cfg <-> lab L x = None) as Hna by (intros x; apply (enc_na cfg Hcfg k); [done|apply Hlt]).
  apply (forR_sat0 B (fun i '(sn, wr) => exists c, sn = Some (Arr sb c) /\ length c = nassigned L /\
    filled c (filter (assigned L) (seq 0 i)) /\ wr = length (filter (assigned L) (seq 0 i)))).
  - eexists. split; [done|]. splits; [by unfold fresh; rewrite replicate_length|apply filled_nil|done].
  - intros i [sn wr] Hi (c & -> & Hc & Hf & ->). rewrite aget_enc by lia. cbn [Rbind].
    assert (filter (assigned L) (seq 0 n) = filter (assigned L) (seq 0 i) ++ filter (assigned L) (seq i (n - i))) as Hsp.
    { rewrite <- filter_app. replace n with (i + (n - i)) at 1 by lia. by rewrite seq_app. }
    assert (nassigned L = length (filter (assigned L) (seq 0 n))) as Hna' by (rewrite <- HL; apply nassigned_seq).
    rewrite Hsp, app_length in Hna'. replace (n - i) with (S (n - S i)) in Hna' by lia. rewrite <- cons_seq, filter_cons in Hna'.
    rewrite (seq_S i). rewrite filter_app. change (0 + i) with i. rewrite (filter_cons _ i []). rewrite filter_nil.
    destruct (decide (enc (lab L i) <> cl_na cfg)) as [Ha|Ha].
    + assert (assigned L i) as Has by (unfold assigned; by rewrite <- Hna). rewrite decide_True in Hna' |- * by done. simpl in Hna'.
      rewrite aset_cells by lia. cbn [Rbind Rsat]. eexists. split; [done|]. rewrite insert_length, app_length. splits; auto. by apply filled_snoc; [|lia].
    + assert (~ assigned L i) as Has by (unfold assigned; rewrite <- Hna; tauto). rewrite (decide_False (P := assigned L i)) by done. rewrite app_nil_r. cbn [Rsat]. eauto.
  - intros [sn wr] (c & -> & Hc & Hf & ->). simpl. rewrite (filled_full c _ Hf); [done|]. rewrite Hc, <- HL. apply nassigned_seq.
Qed.

Lemma by_neighbors_all g L : (forall x, x < length L -> assigned L x) -> by_neighbors g L = L.
Proof.
  intros H. apply labels_ext; [apply by_neighbors_length|]. rewrite by_neighbors_length. intros x Hx. apply by_neighbors_keeps; auto.
Qed.

Lemma stage_all um Sa Ss T rad L : (forall x, x < length L -> assigned L x) -> stage um Sa Ss T rad L L.
Proof. intros H. destruct um; simpl; auto; apply by_search_refl; auto. Qed.

Definition uses_nng (ordered : bool) (um : unassigned_method) : bool :=
  bool_decide (um = UM_ANY_NEIGHBOR \/ (ordered = true /\ um = UM_CLOSEST_ASSIGNED)).

Lemma Msat_make_clusters (B : ub -> Prop) cl b c0 sr ss sb dg g ordered um1 rad1 len_prim prim um2 rad2 w :
  dg_rep dg g -> length g = n -> (forall x, cnt x (dg_blocks dg) <= cnt x (w_live w)) ->
  c_n cl = n -> c_label cl = Some (Arr b c0) -> length c0 = n ->
  seed_st cfg sr ss sb -> groups_ok n g ss -> ss <> [] -> prim_ok n len_prim prim ->
  (no_fail w \/ (B NullPtr /\ B Oob /\ B Arith) \/ (um2 = UM_IGNORE /\ (um1 = UM_IGNORE \/ um1 = UM_ANY_NEIGHBOR))) ->
  Msat B (make_nng_clusters_from_seeds cfg P cl ds sr dg ordered um1 rad1 len_prim prim um2 rad2) w (fun '(ec, cl', dg') w' =>
    wle w w' /\ (forall x, cnt x (w_live w') + cnt x (dg_blocks dg) = cnt x (w_live w) + cnt x (dg_blocks dg')) /\
    exists L', cl' = Clu (c_version cl) n (length ss) (farr b (enc <$> L')) (c_ext cl) /\
    ((ec = ER_OK /\ (w_err w' = w_err w \/ ~ solid w) /\
        assignment (~ solid w) G n g ss (uses_nng ordered um1) um1 rad1 (prim_list n len_prim prim) um2 rad2 L') \/
     (ec <> ER_OK /\ search_fail w ec w' /\
        (L' = seed_labels g ss n \/ L' = by_neighbors g (seed_labels g ss n))))).
Proof.
  intros Hrep Hg Hb Hn Hl Hc0 Hss Hgr Hne Hprim HB. unfold make_nng_clusters_from_seeds.
  apply Msat_bind, Msat_lift. eapply Rsat_mono; [by eapply assign_seeds_sat|]. intros [cl1 nas] [-> ->].
  set (L0 := seed_labels g ss n). set (Sa := filter (assigned L0) (seq 0 n)).
  assert (length L0 = n) as HL0 by apply seed_labels_length.
  assert (labels_lt (length ss) L0) as Hlt by apply seed_labels_lt.
  assert (N.of_nat (length ss) <= cl_max cfg)%N as Hk by (destruct Hss as (? & ? & ? & ? & ? & ?); done).
  assert (length Sa = nassigned L0) as HSa by (rewrite nassigned_seq, HL0; done).
  set (CL := fun L => Clu (c_version cl) n (length ss) (farr b (enc <$> L)) (c_ext cl)).
  change (Clu (c_version cl) n (length ss) (farr b (enc <$> L0)) (c_ext cl)) with (CL L0).
  change (c_n (CL L0)) with n. change (c_label (CL L0)) with (farr b (enc <$> L0)).
  assert (forall um nng rad T L, um1 = um -> (nng = true -> L = by_neighbors g L0) -> (nng = false -> L = L0) -> 
     ((forall x, x < length L -> assigned L x) \/ ((um1 = UM_IGNORE \/ um1 = UM_ANY_NEIGHBOR) /\ um2 = UM_IGNORE)) ->
     assignment (~ solid w) G n g ss nng um rad T um2 rad2 L) as Hquick.
  { intros um nng rad T L <- H1 H2 Hall. exists L, L. fold L0 Sa. split; [left; destruct nng; auto|]. destruct Hall as [Hall|[Hm1 ->]].
    - split; left; by apply stage_all.
    - split; [|left; done]. left. destruct Hm1 as [-> | ->]; done. }
  destruct (is_done n (nassigned L0) um1 um2) eqn:Hdone.
  { unfold is_done in Hdone. apply bool_decide_eq_true in Hdone. apply Msat_ret. split; [wl|]. split; [blk|].
    exists L0. split; [done|]. left. splits; auto.
    destruct (uses_nng ordered um1) eqn:Hnng; apply Hquick; auto; try done.
    - intros _. destruct Hdone as [Hd|[-> _]]; [|unfold uses_nng in Hnng; apply bool_decide_eq_true in Hnng; naive_solver].
      symmetry. apply by_neighbors_all. apply nassigned_all. by rewrite HL0.
    - destruct Hdone as [Hd|[-> ->]]; [left|by right; auto]. apply nassigned_all. by rewrite HL0.
    - destruct Hdone as [Hd|[-> ->]]; [left|by right; auto]. apply nassigned_all. by rewrite HL0. }
  assert (pool Sa ss L0) as Hpool.
  { assert (forall s, s ∈ ss -> s < n /\ assigned L0 s) as Hs.
    { intros s Hs. assert (s < n) as Hsn by (eapply (gr_lt _ _ _ Hgr s s Hs); unfold closed; set_solver). split; [done|].
      unfold assigned, L0. rewrite seed_labels_lab by done. rewrite seed_label_None. intros Hc. apply Hc. exists s. split; [done|]. unfold closed. set_solver. }
    constructor; auto.
    - intros x. unfold Sa. rewrite elem_of_list_filter, elem_of_seq. intuition lia.
    - destruct ss as [|s ss']; [done|]. destruct (Hs s) as [H1 H2]; [set_solver|]. intros HSa0.
      assert (s ∈ Sa) as Hx by (unfold Sa; apply elem_of_list_filter; split; [done|]; apply elem_of_seq; lia). rewrite HSa0 in Hx. by apply elem_of_nil in Hx. }
  assert (NoDup ss) as Hnds.
  { apply NoDup_alt. intros i j s Hi Hj. destruct (decide (i = j)); [done|]. exfalso. eapply (gr_disj _ _ _ Hgr i j s s Hi Hj n0 s); unfold closed; set_solver. }
  assert (NoDup Sa) as HndSa by apply NoDup_filter, NoDup_seq.
  apply Msat_bind. apply (Msat_mono _ _ _ (fun r w' => wle w w' /\ w_err w' = w_err w /\
    match r with
    | None => own w' [] w /\ ~ no_fail w
    | Some sn => own w' (arr_blk sn) w /\ (uses UM_CLOSEST_ASSIGNED um1 um2 = true -> argcells (acells sn) (length Sa) Sa)
    end)).
  { destruct (uses UM_CLOSEST_ASSIGNED um1 um2).
    - apply Msat_bind, Msat_malloc_arr.
      + intros w1 L1 O1 E1 _ F1. apply Msat_ret. auto.
      + intros w1 nb L1 O1 E1 _. apply Msat_bind, Msat_lift. eapply Rsat_mono; [by eapply collect_assigned_sat|].
        intros r Hr. apply Msat_ret. rewrite Hr. fold Sa. splits; auto. intros _. apply argcells_farr.
    - apply Msat_ret. splits; auto; [blk|done]. }
  intros [sn|] w1 (L1 & E1 & H1).
  2:{ destruct H1 as [O1 F1]. apply Msat_bind, Msat_make_error__. intros w2 L2 O2 E2 _. apply Msat_ret.
      split; [wl|]. split; [blk|]. exists L0. split; [done|]. right. splits; auto. split; [by rewrite E2|]. auto. }
  destruct H1 as [O1 Hsn].
  apply Msat_bind. apply (Msat_mono _ _ _ (fun '(cl', total, um', by_nng) w' => wle w1 w' /\ own w' [] w1 /\
    by_nng = uses_nng ordered um1 /\ um' = (if decide (um1 = UM_ANY_NEIGHBOR) then UM_IGNORE else um1) /\
    exists L, cl' = CL L /\ 
     ((L = (if by_nng then by_neighbors g L0 else L0) /\ total = nassigned L /\ w_err w' = w_err w1) \/
      (L = L0 /\ ~ no_fail w)))).
  { destruct (decide (um1 = UM_ANY_NEIGHBOR \/ (ordered = true /\ um1 = UM_CLOSEST_ASSIGNED))) as [Hd|Hd].
    - apply Msat_bind. eapply Msat_mono; [by apply (Msat_assign_by_nng cfg Hcfg B _ b L0 (length ss) dg g n)|].
      assert (uses_nng ordered um1 = true) as Hu by (by apply bool_decide_eq_true).
      intros [cl2 num] w2 (L2 & O2 & H2). apply Msat_ret. splits; auto.
      destruct H2 as [(-> & E2 & Hnum)|(-> & F2 & ->)].
      + exists (by_neighbors g L0). split; [done|]. left. auto.
      + exists L0. split; [done|]. right. split; [done|]. intros F. apply F2. by eapply no_fail_wle.
    - assert (uses_nng ordered um1 = false) as Hu by (by apply bool_decide_eq_false).
      apply Msat_ret. splits; auto; [blk|rewrite decide_False by tauto; done|]. exists L0. split; [done|]. left. auto. }
  intros [[[cl2 total] um'] by_nng] w2 (L2 & O2 & -> & -> & La & -> & Hla).
  set (um' := if decide (um1 = UM_ANY_NEIGHBOR) then UM_IGNORE else um1) in *.
  assert (forall S1 S2 T r La Lb, stage um' S1 S2 T r La Lb <-> stage um1 S1 S2 T r La Lb) as Hum'.
  { intros. unfold um'. by destruct um1. }
  assert (length La = n) as HLa by (destruct Hla as [(-> & _)|(-> & _)]; [destruct (uses_nng _ _); [rewrite by_neighbors_length|]|]; done).
  assert (labels_lt (length ss) La) as Hlta by (destruct Hla as [(-> & _)|(-> & _)]; [destruct (uses_nng _ _); [apply by_neighbors_lt|]|]; done).
  assert (forall x, assigned L0 x -> assigned La x) as Hkeep.
  { intros x Hx. destruct Hla as [(-> & _)|(-> & _)]; [destruct (uses_nng _ _)|]; auto. unfold assigned. by rewrite by_neighbors_keeps. }
  assert (w_err w2 = w_err w \/ ~ solid w) as Herr2.
  { destruct Hla as [(_ & _ & E2)|[_ F]]; [left; congruence|right; tauto]. }
  destruct (uses_nng ordered um1 && is_done n total um' um2)%bool eqn:Hdone2.
  { apply andb_true_iff in Hdone2 as [Hu Hd2]. apply bool_decide_eq_true in Hd2.
    apply Msat_bind, Msat_free_arr; [blk|]. intros w3 L3 C3 E3 _. apply Msat_ret. split; [wl|]. split; [blk|].
    exists La. split; [done|]. left. split; [done|]. split; [by rewrite E3|].
    destruct Hla as [(-> & -> & _)|(-> & F)].
    - apply Hquick; auto; try (rewrite Hu; done). destruct Hd2 as [Hd2|[Hm ->]].
      + left. apply nassigned_all. rewrite Hd2. done.
      + right. split; [|done]. unfold um' in Hm. destruct (decide (um1 = UM_ANY_NEIGHBOR)); auto.
    - exists L0, L0. fold L0. splits; right; split; auto; tauto. }
  assert (no_fail w \/ (B NullPtr /\ B Oob /\ B Arith)) as HB'.
  { destruct HB as [?|[?|[-> Hq]]]; [by left|by right|exfalso]. unfold is_done in Hdone, Hdone2. apply bool_decide_eq_false in Hdone. destruct Hq as [-> | ->]; [tauto|].
    unfold uses_nng in Hdone2. rewrite bool_decide_eq_true_2 in Hdone2 by auto. cbn [andb] in Hdone2. apply bool_decide_eq_false in Hdone2. apply Hdone2. right. unfold um'. by rewrite decide_True. }
  clear Hdone2.
  apply Msat_bind, Msat_free_digraph; [blk|]. intros w3 L3 C3 E3 _.
  apply Msat_bind. eapply Msat_mono.
  { rewrite <- HSa. apply (Msat_assign_search B (CL La) b La (length ss) sr ss sb total um' rad1 len_prim prim um2 rad2 sn Sa); auto; try done.
    - intros Hx. apply Hsn. unfold uses in *. rewrite bool_decide_eq_true in *. unfold um' in Hx. destruct (decide (um1 = UM_ANY_NEIGHBOR)); naive_solver.
    - blk.
    - by eapply pool_keep.
    - destruct Hla as [(_ & ? & _)|[_ F]]; [auto|tauto].
    - destruct HB' as [HB'|HB']; [left|right; tauto]. eapply no_fail_wle; [exact HB'|]. eauto. }
  assert (~ solid w3 -> ~ solid w) as Hns. { intros H HS. apply H. eapply solid_wle; [|exact HS]. wl. }
  intros [ec cl3] w4 (L4 & O4 & H4). apply Msat_ret. split; [wl|]. split; [blk|].
  destruct H4 as [(-> & E4 & Lb & Lc & -> & Hs1 & Hs2)|(Hec & -> & Hfail)].
  - exists Lc. split; [done|]. left. split; [done|]. split.
    { destruct E4 as [E4|E4]; [|right; auto]. destruct Herr2; [left; congruence|auto]. }
    exists La, Lb. fold L0 Sa. splits.
    + destruct Hla as [(? & _)|[? F]]; [auto|]. right. split; [tauto|done].
    + left. by apply Hum'.
    + destruct Hs2 as [?|[? ?]]; auto.
  - exists La. split; [done|]. right. splits; auto.
    + eapply search_fail_wle; [|exact Hfail]. wl.
    + destruct Hla as [(-> & _)|(-> & _)]; [destruct (uses_nng _ _)|]; auto.
Qed.
End Stage.
