(** The nearest neighbour graph for type constraints
    (iscc_get_nng_with_type_constraint). *)

From stdpp Require Import prelude list sorting.
From Coq Require Import NArith ZArith.
From Verif Require Import Base World Mem Digraph DigraphRep DigraphOps DigraphUnion DigraphDiff Float Spi Options Arrays GraphSpec AssignSpec Seeds SeedsProof SeedsExcl Nng NngGraph NngSize NngAssign NngStage TypeCount TypeRows.

Definition dgs_blocks (dgs : list digraph) : list nat := concat (dg_blocks <$> dgs).

Lemma dgs_blocks_snoc dgs d : dgs_blocks (dgs ++ [d]) = dgs_blocks dgs ++ dg_blocks d.
Proof. unfold dgs_blocks. rewrite fmap_app, concat_app. simpl. by rewrite app_nil_r. Qed.

Lemma dd_filter s l : NoDup l -> dd s l = filter (fun x => x ∉ s) l.
Proof.
  revert s. induction l as [|y l IH]; intros s Hn; [done|]. inversion_clear Hn as [|? ? Hy Hn']. simpl.
  destruct (decide (y ∈ s)) as [Hys|Hys].
  - rewrite filter_cons_False by tauto. auto.
  - rewrite filter_cons_True by done. f_equal. rewrite IH by done. clear IH. induction l as [|z l IHl]; [done|].
    inversion_clear Hn' as [|? ? Hz Hn'']. rewrite not_elem_of_cons in Hy. destruct Hy as [Hyz Hyl]. rewrite !filter_cons.
    destruct (decide (z ∉ y :: s)) as [H1|H1], (decide (z ∉ s)) as [H2|H2].
    + f_equal. auto.
    + exfalso. apply H1. apply not_elem_of_cons in H1. tauto.
    + exfalso. apply H1. apply not_elem_of_cons. split; [congruence|done].
    + auto.
Qed.

Lemma Msat_free_dgs B nb c dgs w (R : unit -> world -> Prop) : filled c dgs ->
  (forall x, cnt x (dgs_blocks dgs) <= cnt x (w_live w)) ->
  (forall w', wle w w' -> own w (dgs_blocks dgs) w' -> w_err w' = w_err w -> R tt w') ->
  Msat B (free_dgs (Some (Arr nb c)) (length dgs)) w R.
Proof.
  intros Hf Hb HR. unfold free_dgs. apply (forM_sat B (fun j _ w' => wle w w' /\ own w (dgs_blocks (take j dgs)) w' /\ w_err w' = w_err w)).
  - splits; auto. intros x. simpl. done.
  - intros j [] w1 Hj (L1 & O1 & E1). destruct (lookup_lt_is_Some_2 dgs j Hj) as [d Hd].
    apply Msat_bind, Msat_lift. rewrite (aget_cells _ _ _ d) by (by eapply filled_lookup). cbn [Rsat].
    assert (dgs_blocks dgs = dgs_blocks (take (S j) dgs) ++ dgs_blocks (drop (S j) dgs)) as Hs.
    { unfold dgs_blocks. by rewrite <- concat_app, <- fmap_app, take_drop. }
    rewrite (take_S_r _ _ _ Hd), dgs_blocks_snoc in Hs. apply Msat_bind, Msat_free_digraph.
    { rewrite Hs in Hb. blk. }
    intros w2 L2 C2 E2 T2. apply Msat_ret. rewrite (take_S_r _ _ _ Hd), dgs_blocks_snoc. splits; [wl|blk|congruence].
  - intros [] w1 (L1 & O1 & E1). rewrite firstn_all in O1. auto.
Qed.

Lemma concat_rows_le (g : list (list nat)) m k : length g = m -> (forall v, v < m -> length (adj g v) <= k) -> length (concat g) <= m * k.
Proof.
  intros Hg H. subst m. induction g as [|r g IH]; [done|]. simpl. rewrite app_length. pose proof (H 0 ltac:(simpl; lia)) as H0. unfold adj in H0. simpl in H0.
  specialize (IH ltac:(intros v Hv; apply (H (S v)); simpl; lia)). lia.
Qed.

Section Types.
Context (cfg : config) (P : provider) (V : pview P) (ds : p_ds P) (n : nat) (G : geometry) (D : dist_fun).
Hypothesis (HP : provider_ok P V ds n G D).
Notation solid w := (no_fail w /\ provider_reliable P V ds n).
Notation dg_rep := (dg_rep cfg).
Notation nng_fail := (nng_fail cfg P V ds n).
Notation nng_post := (nng_post cfg P V ds n G).
Notation nn_graph := (nn_graph n G).
Notation feasible := (feasible G).
Notation prim_list := (prim_list n).
Notation prim_ok := (prim_ok n).
Context (nt size : nat) (tcons tl : list nat) (len_prim : nat) (prim : option (list nat)) (rad : option double).
Hypothesis (Hty : types_ok n nt tcons tl) (Hprim : prim_ok len_prim prim).
Hypothesis (Hsum : tsum nt tcons <= size) (Hsn : size <= n) (Hw64 : (N.of_nat (n * size) <= u64max)%N).
Hypothesis (Hgrp : forall t c, t < nt -> tcons !! t = Some c -> c <= length (group tl n t)).
Notation Q := (prim_list len_prim prim).
Notation grp := (group tl n).
Notation groups := (groups n nt tl).
Notation tcon := (tcon tcons).
Notation used m := (used_types tcons m).
Notation tfeas m := (type_feasible n tl tcons G rad (used_types tcons m)).
Notation okl m := (filter (type_feasible n tl tcons G rad (used_types tcons m)) Q).

Notation type_state := (nat * option (arr nat) * option (arr digraph) * nat)%type.

(** The list of queries that are left and the buffer holding it. *)
Definition queries_at (sb : list nat) (ok : list nat) (nq : nat) (seedable : option (arr nat)) : Prop :=
  nq = length ok /\ argcells (seedable_cells rad prim seedable) nq ok /\ arr_blk seedable = sb /\
  match rad with
  | None => seedable = None /\ ok = Q
  | Some _ => match seedable with Some a => length Q <= length (a_cells a) | None => False end
  end.

(** Graphs for the types in [ts]. *)
Definition type_graphs (ok : list nat) (ts : list nat) (rss : list (list (list nat))) : Prop :=
  Forall2 (fun t g => forall v, v ∈ ok -> type_row n tl tcons G rad v t (adj g v)) ts rss.

Lemma tcon_lookup t : t < nt -> tcons !! t = Some (tcon t).
Proof.
  intros Ht. destruct Hty as (_ & Hl & _). destruct (lookup_lt_is_Some_2 tcons t) as [c Hc]; [lia|]. unfold TypeRows.tcon. by rewrite Hc.
Qed.

Lemma tcon_le t : t < nt -> tcon t <= size.
Proof.
  intros Ht. pose proof (tcon_lookup t Ht) as Hl. etransitivity; [|exact Hsum]. unfold tsum.
  rewrite <- (take_drop (S t) (take nt tcons)), take_take, Nat.min_l by lia. rewrite sum_list_with_app, (sum_take_S _ _ _ Hl). lia.
Qed.

Lemma okl_snoc m : 0 < tcon m -> okl (S m) = filter (feasible (grp m) (tcon m) rad) (okl m).
Proof.
  intros Hm. rewrite list_filter_filter. apply list_filter_iff. intros v. rewrite used_types_snoc, decide_True by done.
  unfold type_feasible. rewrite Forall_app, Forall_singleton. tauto.
Qed.

Lemma okl_skip m : ~ 0 < tcon m -> okl (S m) = okl m.
Proof. intros Hm. by rewrite used_types_snoc, decide_False, app_nil_r by done. Qed.

Lemma Q_sorted : StronglySorted lt Q.
Proof. apply Hprim. Qed.
Lemma Q_lt : Forall (fun x => x < n) Q.
Proof. apply Hprim. Qed.
Lemma Q_len : length Q <= n.
Proof. by apply prim_len. Qed.

Lemma sub_lt (ok : list nat) : (forall x, x ∈ ok -> x ∈ Q) -> Forall (fun x => x < n) ok.
Proof. intros H. pose proof Q_lt as HQ. rewrite Forall_forall in *. auto. Qed.

Lemma feasible_none S k v : k <= length S -> rad = None -> feasible S k rad v.
Proof.
  intros H ->. unfold AssignSpec.feasible. rewrite list_filter_all; [done|]. by apply Forall_forall.
Qed.

(** One search, for a subset of the points. *)
Lemma Msat_typed_search B lens s S k ok nq seedable sb w :
  argcells s lens S -> S <> [] -> Forall (fun x => x < n) S -> NoDup S -> 0 < k -> k <= length S -> k <= size ->
  queries_at sb ok nq seedable -> ok <> [] -> StronglySorted lt ok -> (forall x, x ∈ ok -> x ∈ Q) ->
  Msat B (make_nng cfg P ds n lens s nq (seedable_cells rad prim seedable) k rad seedable) w (fun '(ec, num, seedable', nng) w' =>
    wle w w' /\ arr_blk seedable' = sb /\
    (ec = ER_OK -> exists g, let ok' := filter (feasible S k rad) ok in
       dg_rep nng g /\ length g = n /\ own w' (dg_blocks nng) w /\ w_err w' = w_err w /\ queries_at sb ok' num seedable' /\
       (forall v, v ∈ ok' -> nearest G S k v (adj g v) /\ Forall (fun x => within_opt G rad v x = true) (adj g v)) /\
       (forall v, v ∉ ok' -> adj g v = []) /\ (concat g = [] <-> ok' = [])) /\
    (ec <> ER_OK -> own w' [] w /\ nng_fail (n * size) w ec w')).
Proof.
  intros Hs HneS HltS HndS Hk HkS Hks (-> & Harg & Hsb & Hrad) Hne Hso Hsub.
  assert (length ok <= length Q) as Hlen.
  { apply submseteq_length, NoDup_submseteq; [by apply sorted_NoDup|]. done. }
  pose proof Q_len as HQl. eapply Msat_mono.
  { apply (Msat_make_nng cfg P V ds n G D HP) with (S := S) (Q := ok); auto.
    - by apply sub_lt.
    - nia.
    - intros r ->. destruct seedable as [a|]; [|done]. lia. }
  intros [[[ec num] sd] nng] w1 (L1 & Hb & Hok & Hbad). splits; auto.
  - congruence.
  - intros Hec. destruct (Hok Hec) as (ok' & g & Hrep & HG & -> & O1 & E1 & Hwr). exists g. cbv zeta.
    pose proof (ng_ok _ _ _ _ _ _ _ _ HG) as Hok'. rewrite <- Hok'.
    assert (forall v, v ∈ ok' -> nearest G S k v (adj g v) /\ Forall (fun x => within_opt G rad v x = true) (adj g v)) as Hrow by apply HG.
    splits; auto; [apply HG| |apply HG|].
    + unfold queries_at. splits; auto; [|congruence|].
      * destruct rad as [r|] eqn:Er; simpl in *.
        -- destruct seedable as [a|]; [|done]. destruct Hwr as (b & c & c' & [= ->] & -> & Hf & Hl). simpl. auto.
        -- destruct Hrad as [-> ->]. subst sd. rewrite <- Er in *. rewrite Hok'. rewrite list_filter_all; [done|].
           apply Forall_forall. intros x _. by apply feasible_none.
      * destruct rad as [r|] eqn:Er; simpl in *.
        -- destruct seedable as [a|]; [|done]. destruct Hwr as (b & c & c' & [= ->] & -> & Hf & Hl). simpl in *. lia.
        -- destruct Hrad as [-> ->]. subst sd. split; [done|]. rewrite <- Er in *. rewrite Hok'. rewrite list_filter_all; [done|].
           apply Forall_forall. intros x _. by apply feasible_none.
    + split.
      * intros Hc. destruct ok' as [|v ok']; [done|]. destruct (Hrow v ltac:(set_solver)) as [Hnr _].
        pose proof (nst_len _ _ _ _ _ Hnr) as Hl. rewrite concat_nil_adj in Hl by done. simpl in Hl. lia.
      * intros Hnil. assert (forall v, adj g v = []) as Hall by (intros v; apply (ng_none _ _ _ _ _ _ _ _ HG); rewrite Hnil; apply not_elem_of_nil).
        clear -Hall. revert Hall. induction g as [|r g IH]; intros Hall; [done|]. simpl. pose proof (Hall 0) as H0. unfold adj in H0. simpl in H0. subst r.
        simpl. apply IH. intros v. apply (Hall (S v)).
  - intros Hec. destruct (Hbad Hec) as [O1 HF]. split; [done|]. destruct HF as [He HF]. split; [done|].
    destruct HF as [?|[[? Ht]|?]]; auto. right. left. split; [done|]. eapply too_many_mono; [|exact Ht]. nia.
Qed.

(** State after the types below [i]. *)
Record types_inv (w : world) (sb : list nat) (nb : nat) (i : nat) (st : type_state) (w' : world) : Prop := {
  ti_wle : wle w w';
  ti_err : w_err w' = w_err w;
  ti_queries : queries_at sb (okl i) st.1.1.1 st.1.1.2;
  ti_ne : okl i <> [];
  ti_graphs : exists dgs rss c, st.1.2 = Some (Arr nb c) /\ length c = nt /\ filled c dgs /\ st.2 = length dgs /\
    dgs_rep cfg dgs rss n /\ type_graphs (okl i) (used i) rss /\ own w' (dgs_blocks dgs) w
}.

(** State when a type fails. *)
Definition types_fail (w : world) (sb : list nat) (nb : nat) (r : ecode * type_state) (w' : world) : Prop :=
  let '(ec, (nq, seedable, nbt, nz)) := r in
  wle w w' /\ ec <> ER_OK /\ arr_blk seedable = sb /\
  (exists dgs c, nbt = Some (Arr nb c) /\ filled c dgs /\ nz = length dgs /\ own w' (dgs_blocks dgs) w) /\
  e_code (w_err w') = ec /\
  (nng_fail (n * size) w ec w' \/ (ec = ER_NO_SOLUTION /\ forall v, v ∈ Q -> ~ tfeas nt v)).

Lemma tfeas_mono m v : m <= nt -> tfeas nt v -> tfeas m v.
Proof.
  intros Hm. unfold type_feasible. rewrite !Forall_forall. intros H t Ht. apply H. apply elem_of_used_types in Ht. apply elem_of_used_types. lia.
Qed.

Lemma Msat_type_step B tc w sb nb i st w1 : tc_rep n nt tcons tl tc -> i < nt -> types_inv w sb nb i st w1 ->
  Msat B (type_step cfg P ds n tcons tc prim rad i st) w1 (fun r w' =>
    match r with inl st' => types_inv w sb nb (S i) st' w' | inr t => types_fail w sb nb t w' end).
Proof.
  intros Htc Hi [L E HQ Hne Hgs]. destruct st as [[[nq seedable] nbt] nz]. simpl in *.
  destruct Hgs as (dgs & rss & c & -> & Hcl & Hcf & -> & Hdr & Htg & Ho).
  pose proof (tcon_lookup i Hi) as Hlk. unfold type_step.
  apply Msat_bind, Msat_lift. rewrite (lget_ok _ _ _ Hlk). cbn [Rsat].
  destruct (decide (0 < tcon i)) as [Hpos|Hpos].
  2:{ apply Msat_ret. assert (used (S i) = used i) as Hu by (by rewrite used_types_snoc, decide_False, app_nil_r by done).
      constructor; simpl; rewrite ?okl_skip by done; auto. rewrite Hu. exists dgs, rss, c. splits; auto. }
  destruct (tr_size _ _ _ _ _ Htc) as [zb Hz]. destruct (tr_groups _ _ _ _ _ Htc) as [gb Hg]. destruct (tr_store _ _ _ _ _ Htc) as (pb & pc & Hp & Hpf).
  rewrite Hz, Hg, Hp. apply Msat_bind, Msat_lift. rewrite (aget_farr _ _ _ (length (grp i))) by (by rewrite list_lookup_fmap, groups_lookup). cbn [Rsat].
  apply Msat_bind, Msat_lift. rewrite (aget_farr _ _ _ (offs groups i)) by (by rewrite list_lookup_fmap, lookup_seq_lt). cbn [Rsat a_cells].
  set (gcells := Some (drop (offs groups i) pc)).
  assert (argcells gcells (length (grp i)) (reverse (grp i))) as Hga. { split; [by apply Hpf|]. apply reverse_length. }
  pose proof (Hgrp i _ Hi Hlk) as Hgl.
  assert (Forall (fun x => x < n) (reverse (grp i))) as Hglt.
  { apply Forall_forall. intros x. rewrite elem_of_reverse. intros Hx%elem_of_group. tauto. }
  assert (reverse (grp i) ≡ₚ grp i) as Hperm by apply reverse_Permutation.
  eapply Msat_bind_mono.
  { apply (Msat_typed_search B _ _ (reverse (grp i)) (tcon i) (okl i)) with (sb := sb); auto.
    - intros Hn. apply (f_equal length) in Hn. rewrite reverse_length in Hn. simpl in Hn. lia.
    - rewrite Hperm. apply group_NoDup.
    - rewrite reverse_length. lia.
    - by apply tcon_le.
    - apply sorted_filter, Q_sorted.
    - intros x [_ Hx]%elem_of_list_filter. done. }
  intros [[[ec num] sd] nng] w2 (L2 & Hsb & Hok & Hbad).
  case_decide as Hec.
  { destruct (Hbad Hec) as [O2 HF]. apply Msat_ret. unfold types_fail. splits; auto; [wl| |apply HF|].
    - exists dgs, c. splits; auto. blk.
    - left. by eapply nng_fail_wle. }
  assert (ec = ER_OK) as -> by (destruct (decide (ec = ER_OK)); tauto). clear Hbad Hec.
  destruct (Hok eq_refl) as (g & Hrep & Hgn & O2 & E2 & HQ2 & Hrow & Hnone & Hemp). clear Hok.
  assert (filter (feasible (reverse (grp i)) (tcon i) rad) (okl i) = okl (S i)) as Hoks.
  { rewrite okl_snoc by done. apply list_filter_iff. intros v. by apply feasible_perm. }
  rewrite Hoks in *. clear Hoks.
  assert (length dgs = length (used i)) as Hdl.
  { rewrite (Forall2_length _ _ _ Htg). by eapply Forall2_length. }
  pose proof (used_types_length tcons i) as Hul.
  apply Msat_bind, Msat_lift. rewrite aset_cells by lia. cbn [Rsat].
  apply Msat_bind, Msat_lift. rewrite (is_empty_rep cfg _ _ Hrep). cbn [Rsat].
  case_bool_decide as He.
  { apply Msat_bind. apply Msat_make_error__. intros w3 L3 O3 E3 T3. apply Msat_ret. unfold types_fail. splits; auto; [wl| | |].
    - exists (dgs ++ [nng]), (<[length dgs := Some nng]> c). splits; auto; [apply filled_snoc; auto; lia|rewrite app_length; simpl; lia|].
      rewrite dgs_blocks_snoc. blk.
    - by rewrite E3.
    - right. split; [done|]. intros v Hv Hf. assert (v ∈ okl (S i)) as Hin. { apply elem_of_list_filter. split; [|done]. apply tfeas_mono; [lia|done]. }
      apply Hemp in He. rewrite He in Hin. by apply elem_of_nil in Hin. }
  apply Msat_bind, Msat_lift. eapply Rsat_mono.
  { apply (ensure_self_match_sat cfg B nng g _ _ (reverse (grp i))); [done|exact Hga|]. by rewrite Hgn. }
  intros nng2 [Hrep2 Hb2]. apply Msat_bind, Msat_lift. rewrite aset_cells by (rewrite insert_length; lia). cbn [Rsat].
  replace (length dgs + 1 - 1) with (length dgs) by lia. rewrite list_insert_insert. apply Msat_ret.
  constructor; simpl; auto; [wl|congruence| |].
  { intros Hn. apply He, Hemp, Hn. }
  exists (dgs ++ [nng2]), (rss ++ [self_rows (reverse (grp i)) g]), (<[length dgs := Some nng2]> c). splits; auto.
  - by rewrite insert_length.
  - apply filled_snoc; auto. lia.
  - rewrite app_length. simpl. lia.
  - apply Forall2_app; [done|]. constructor; [|constructor]. split; [done|]. by rewrite self_rows_length.
  - unfold type_graphs. remember (okl (S i)) as ok' eqn:Hok'. rewrite used_types_snoc, decide_True by done. apply Forall2_app.
    + eapply Forall2_impl; [exact Htg|]. cbv beta. intros t rs Hr v Hv. apply Hr. rewrite Hok', okl_snoc in Hv by done. apply elem_of_list_filter in Hv. tauto.
    + constructor; [|constructor]. intros v Hv. destruct (Hrow v Hv) as [Hnr Hwi]. exists (adj g v). splits; auto.
      * by eapply nearest_perm.
      * rewrite self_rows_adj. destruct (decide (v ∈ reverse (grp i))) as [H1|H1], (decide (v ∈ grp i)) as [H2|H2]; auto; rewrite elem_of_reverse in H1; tauto.
  - rewrite dgs_blocks_snoc, Hb2. blk.
Qed.

(** The tails passed to the union. *)
Lemma tails_sat B sb ok nq seedable : queries_at sb ok nq seedable -> StronglySorted lt ok -> (forall x, x ∈ ok -> x ∈ Q) ->
  Rsat B (read_idx nq (seedable_cells rad prim seedable)) (fun ts => tails_ok n ts.2 /\ (forall v, v < n -> tail_kept ts.2 v = bool_decide (v ∈ ok))).
Proof.
  intros (-> & Harg & _ & Hrad) Hs Hsub. eapply Rsat_mono; [by apply read_idx_arg|]. intros ts (_ & _ & ->).
  destruct (seedable_cells rad prim seedable) as [c|] eqn:Ec; simpl.
  - split; [split; [done|by apply sub_lt]|]. done.
  - split; [done|]. intros v Hv. symmetry. apply bool_decide_eq_true_2.
    destruct rad as [r|]; simpl in Ec.
    + destruct seedable as [a|]; [done|]. done.
    + destruct Hrad as [-> ->]. destruct prim as [l|]; [done|]. apply elem_of_seq. lia.
Qed.

Lemma type_graphs_row ok ts rss v : type_graphs ok ts rss -> v ∈ ok ->
  Forall2 (type_row n tl tcons G rad v) ts ((fun rs => row rs v) <$> rss).
Proof.
  intros H Hv. apply Forall2_fmap_r. eapply Forall2_impl; [exact H|]. cbv beta. intros t rs Hr. specialize (Hr v Hv). rewrite adj_row in Hr. exact Hr.
Qed.

Lemma nt_le : nt <= length tcons.
Proof. apply Hty. Qed.

Lemma union_typed keep ts ok rss v : type_graphs ok (used nt) rss ->
  (forall v, v < n -> tail_kept ts v = bool_decide (v ∈ ok)) -> v < n ->
  let g := union_rows keep ts rss n in
  (v ∈ ok -> exists cs, Forall2 (type_row n tl tcons G rad v) (used nt) cs /\ NoDup (concat cs) /\ length (concat cs) = tsum nt tcons /\
      adj g v = (if (keep : bool) then concat cs else filter (fun x => x <> v) (concat cs))) /\
  (v ∉ ok -> adj g v = []).
Proof.
  intros Htg Hts Hv g. unfold g. rewrite adj_row. unfold union_rows. rewrite row_seq by done. unfold union_rowk. rewrite (Hts v Hv).
  split; intros Hok.
  - rewrite bool_decide_eq_true_2 by done. pose proof (type_graphs_row _ _ _ _ Htg Hok) as Hf. eexists. split; [exact Hf|].
    destruct (type_rows_facts n tl tcons G rad (used nt) v ((fun rs => row rs v) <$> rss)) as (F1 & F2 & _); [| |exact Hf|].
    { apply used_types_NoDup. } { apply Forall_forall. intros t Ht%elem_of_used_types. tauto. }
    rewrite used_sum in F2 by apply nt_le. splits; auto. unfold union_row. rewrite dd_filter by done. destruct keep.
    + apply list_filter_all. apply Forall_forall. intros x _. apply not_elem_of_nil.
    + apply list_filter_iff. intros x. by rewrite elem_of_list_singleton.
  - by rewrite bool_decide_eq_false_2.
Qed.

Lemma new_fail rows gr w r w' m : new_post cfg rows gr w r w' -> length (concat rows) <= m -> r.1 <> ER_OK ->
  own w' [] w /\ nng_fail m w r.1 w'.
Proof.
  intros (_ & _ & _ & H) Hm Hr. destruct (H Hr) as (O & E & HF). split; [done|]. split; [done|]. destruct HF as [[-> ?]|[-> Ht]]; [auto|].
  right. left. split; [done|]. by eapply too_many_mono.
Qed.

Notation typed_ok := (typed_ok n tl tcons G rad nt size).
Notation typed_adj := (typed_adj n tl tcons G rad false nt size).

(** Outcome for the whole function, apart from blocks. *)
Definition typed_result (w : world) (r : ecode * digraph) (w' : world) : Prop :=
  (r.1 = ER_OK -> exists g, dg_rep r.2 g /\ type_graph n tl tcons G rad false nt size Q g /\ (exists v, v ∈ Q /\ typed_ok v) /\
     (w_err w' = w_err w \/ w_err w' = no_errst)) /\
  (r.1 <> ER_OK -> e_code (w_err w') = r.1 /\
     (nng_fail (n * size) w r.1 w' \/ (r.1 = ER_NO_SOLUTION /\ forall v, v ∈ Q -> ~ typed_ok v))).

Lemma Msat_add_general B sb nq seedable out orows w :
  queries_at sb (okl nt) nq seedable -> okl nt <> [] -> tsum nt tcons < size ->
  dg_rep out orows -> length orows = n ->
  (forall v, v < n -> v ∈ okl nt -> exists cs, Forall2 (type_row n tl tcons G rad v) (used nt) cs /\ NoDup (concat cs) /\
     length (concat cs) = tsum nt tcons /\ adj orows v = concat cs) ->
  (forall v, v < n -> v ∉ okl nt -> adj orows v = []) ->
  (forall x, cnt x (dg_blocks out) + cnt x sb <= cnt x (w_live w)) ->
  Msat B (add_general_nn cfg P ds n size (tsum nt tcons) prim rad nq seedable out) w (fun r w' =>
    wle w w' /\ typed_result w r w' /\
    (forall x, cnt x (w_live w') + cnt x (dg_blocks out) + cnt x sb = cnt x (w_live w) + cnt x (if decide (r.1 = ER_OK) then dg_blocks r.2 else []))).
Proof.
  intros HQ Hne Hlt Hout Hon Hin Hno Hb. assert (0 < n) as Hn0.
  { pose proof Q_lt as HQl. destruct (okl nt) as [|v l] eqn:Eo; [done|]. assert (v ∈ okl nt) as Hv by (rewrite Eo; left).
    apply elem_of_list_filter in Hv as [_ Hv]. rewrite Forall_forall in HQl. specialize (HQl v Hv). lia. }
  assert (arr_blk seedable = sb) as Hsb0 by apply HQ. unfold add_general_nn.
  eapply Msat_bind_mono.
  { apply (Msat_typed_search B n None (seq 0 n) size (okl nt)) with (sb := sb); auto.
    - done.
    - intros Hs. apply (f_equal length) in Hs. rewrite seq_length in Hs. simpl in Hs. lia.
    - apply Forall_forall. intros x Hx%elem_of_seq. lia.
    - apply NoDup_seq.
    - lia.
    - by rewrite seq_length.
    - apply sorted_filter, Q_sorted.
    - intros x [_ Hx]%elem_of_list_filter. done. }
  intros [[[ec num] sd] nng1] w1 (L1 & Hsb & Hok & Hbad).
  case_decide as Hec.
  { destruct (Hbad Hec) as [O1 HF]. apply Msat_bind, Msat_free_arr; [rewrite Hsb; blk|]. intros w2 L2 C2 E2 T2. rewrite Hsb in C2.
    apply Msat_bind, Msat_free_digraph; [blk|]. intros w3 L3 C3 E3 T3. apply Msat_ret.
    split; [wl|]. split; [|simpl; rewrite decide_False by done; intros x; specialize (O1 x); specialize (C2 x); specialize (C3 x); simpl in *; lia].
    split; [done|]. simpl. intros _. assert (w_err w3 = w_err w1) as E by congruence. split; [rewrite E; apply HF|]. left. by eapply nng_fail_err. }
  assert (ec = ER_OK) as -> by (destruct (decide (ec = ER_OK)); tauto). clear Hbad Hec.
  destruct (Hok eq_refl) as (g1 & Hrep1 & Hg1 & O1 & E1 & HQ2 & Hrow & Hnone & Hemp). clear Hok.
  set (ok2 := filter (feasible (seq 0 n) size rad) (okl nt)) in *.
  assert (forall v, v ∈ ok2 <-> v ∈ Q /\ typed_ok v) as Hok2.
  { intros v. unfold ok2, TypeRows.typed_ok. rewrite !elem_of_list_filter. tauto. }
  apply Msat_bind, Msat_lift. rewrite (is_empty_rep cfg _ _ Hrep1). cbn [Rsat].
  case_bool_decide as He.
  { apply Msat_bind, Msat_bind, Msat_make_error__. intros w2 L2 O2 E2 T2. apply Msat_ret. apply Msat_bind.
    rewrite decide_False by done. apply Msat_ret.
    apply Msat_bind, Msat_free_digraph; [blk|]. intros w3 L3 C3 E3 T3.
    apply Msat_bind, Msat_free_digraph; [blk|]. intros w4 L4 C4 E4 T4.
    apply Msat_bind, Msat_free_arr; [rewrite Hsb; blk|]. intros w5 L5 C5 E5 T5. rewrite Hsb in C5.
    rewrite decide_True by done. apply Msat_ret. split; [wl|].
    split; [|simpl; intros x; specialize (O1 x); specialize (O2 x); specialize (C3 x); specialize (C4 x); specialize (C5 x); simpl in *; lia].
    split; [done|]. simpl. intros _. assert (w_err w5 = w_err w2) as E by congruence. split; [by rewrite E, E2|]. right. split; [done|].
    intros v Hv Hf. assert (v ∈ ok2) as Hvo by (by apply Hok2). apply Hemp in He. rewrite He in Hvo. by apply elem_of_nil in Hvo. }
  eapply Msat_bind_mono; [apply (Msat_difference cfg B nng1 out g1 orows (size - tsum nt tcons) w1 Hrep1 Hout); [congruence|blk]|].
  intros [ec nng2] w2 (L2 & T2 & C2 & Hdok & Hdbad). simpl in C2, Hdok, Hdbad.
  destruct (decide (ec = ER_OK)) as [->|Hec].
  2:{ destruct (Hdbad Hec) as (Hec' & F2 & E2). apply Msat_bind, Msat_ret.
    apply Msat_bind, Msat_free_digraph; [blk|]. intros w3 L3 C3 E3 T3.
    apply Msat_bind, Msat_free_digraph; [blk|]. intros w4 L4 C4 E4 T4.
    apply Msat_bind, Msat_free_arr; [rewrite Hsb; blk|]. intros w5 L5 C5 E5 T5. rewrite Hsb in C5.
    rewrite (decide_True (P := ec <> ER_OK)) by done. apply Msat_ret. split; [wl|].
    split; [|simpl; rewrite decide_False by done; intros x; specialize (O1 x); specialize (C2 x); specialize (C3 x); specialize (C4 x); specialize (C5 x); simpl in *; lia].
    split; [done|]. simpl. intros _. assert (e_code (w_err w5) = ec) as E by congruence. split; [done|]. left. split; [done|]. left. split; [done|].
    intros Hnf. apply F2. by eapply no_fail_wle. }
  destruct (Hdok eq_refl) as (Hrep2 & _ & E2). clear Hdok Hdbad.
  set (g2 := diff_rows (size - tsum nt tcons) g1 orows) in *.
  assert (length g2 = n) as Hg2 by (unfold g2; by rewrite diff_rows_length).
  apply Msat_bind, Msat_bind, Msat_lift. eapply Rsat_mono.
  { apply (tails_sat B sb ok2); [done| |].
    - apply sorted_filter, sorted_filter, Q_sorted.
    - intros x Hx. by apply Hok2. }
  intros ts [Hts Hkept]. eapply Msat_mono.
  { apply (Msat_union cfg B [out; nng2] [orows; g2] n false ts.2); [|done|done]. constructor; [done|]. constructor; [done|constructor]. }
  intros [ec new] w3 Hnew. pose proof Hnew as (L3 & T3 & Hnok & Hnbad). simpl in Hnok, Hnbad.
  set (g3 := union_rows false ts.2 [orows; g2] n) in *.
  assert (forall v, v < n -> v ∉ ok2 -> adj g3 v = []) as Hg3no.
  { intros v Hv Hvo. unfold g3. rewrite adj_row. unfold union_rows. rewrite row_seq by done. unfold union_rowk. rewrite (Hkept v Hv).
    by rewrite bool_decide_eq_false_2. }
  assert (forall v, v < n -> v ∈ ok2 -> typed_adj v (adj g3 v)) as Hg3.
  { intros v Hv Hvo. destruct (Hin v Hv) as (cs & Hcs & Hnd & Hcl & Hadj). { unfold ok2 in Hvo. apply elem_of_list_filter in Hvo. tauto. }
    destruct (Hrow v Hvo) as [Hnr Hwi]. exists cs, (extra_row (size - tsum nt tcons) cs (adj g1 v)). split; [done|]. split.
    - rewrite decide_True by done. exists (adj g1 v). splits; auto.
    - unfold g3. rewrite adj_row. unfold union_rows. rewrite row_seq by done. unfold union_rowk. rewrite (Hkept v Hv).
      rewrite bool_decide_eq_true_2 by done. unfold union_row. simpl. rewrite app_nil_r, <- !adj_row, Hadj.
      unfold g2. rewrite diff_rows_spec by lia. unfold spec_difference. rewrite Hadj. fold (extra_row (size - tsum nt tcons) cs (adj g1 v)).
      destruct (extra_row_facts (size - tsum nt tcons) cs (adj g1 v)) as (X1 & _ & _).
      + eapply submseteq_nodup; [apply Hnr|apply NoDup_seq].
      + rewrite (nst_len _ _ _ _ _ Hnr). lia.
      + done.
      + rewrite dd_filter by done. apply list_filter_iff. intros x. by rewrite elem_of_list_singleton. }
  assert (length g3 = n) as Hg3l by (unfold g3, union_rows; by rewrite fmap_length, seq_length).
  assert (length (concat g3) <= n * size) as Hg3c.
  { apply concat_rows_le; [done|]. intros v Hv. destruct (decide (v ∈ ok2)) as [Hvo|Hvo]; [|rewrite Hg3no by done; simpl; lia].
    destruct (typed_adj_facts n tl tcons G rad false nt size v (adj g3 v)) as (_ & _ & ? & _); auto; [apply nt_le|lia]. }
  assert (exists v, v ∈ ok2) as [v0 Hv0].
  { destruct ok2 as [|v0 ?] eqn:Eok2; [|exists v0; left]. exfalso. apply He, Hemp. done. }
  destruct (decide (ec = ER_OK)) as [->|Hec].
  - destruct (Hnok eq_refl) as (O3 & Hrep3 & _ & E3 & _).
    apply Msat_bind, Msat_free_digraph; [blk|]. intros w4 L4 C4 E4 T4.
    apply Msat_bind, Msat_free_digraph; [blk|]. intros w5 L5 C5 E5 T5.
    apply Msat_bind, Msat_free_arr; [rewrite Hsb; blk|]. intros w6 L6 C6 E6 T6. rewrite Hsb in C6.
    rewrite decide_False by tauto. apply Msat_ret. split; [wl|].
    split; [|simpl; intros x; specialize (O1 x); specialize (C2 x); specialize (O3 x); specialize (C4 x); specialize (C5 x); specialize (C6 x); simpl in *; lia].
    split; [|done]. intros _. exists g3. simpl. splits; auto.
    + constructor; auto.
      * intros v Hv Hf. apply Hg3; [|by apply Hok2]. pose proof Q_lt as HQl. rewrite Forall_forall in HQl. auto.
      * intros v Hv. destruct (decide (v < n)) as [Hvn|Hvn].
        -- apply Hg3no; [done|]. by rewrite Hok2.
        -- unfold adj. rewrite lookup_ge_None_2; [done|]. lia.
    + exists v0. by apply Hok2.
    + destruct E3 as [E3|E3]; [left|right]; congruence.
  - destruct (new_fail _ _ _ _ _ (n * size) Hnew Hg3c Hec) as [O3 HF]. simpl in HF.
    apply Msat_bind, Msat_free_digraph; [blk|]. intros w4 L4 C4 E4 T4.
    apply Msat_bind, Msat_free_digraph; [blk|]. intros w5 L5 C5 E5 T5.
    apply Msat_bind, Msat_free_arr; [rewrite Hsb; blk|]. intros w6 L6 C6 E6 T6. rewrite Hsb in C6.
    rewrite (decide_True (P := ec <> ER_OK)) by done. apply Msat_ret. split; [wl|].
    split; [|simpl; rewrite decide_False by done; intros x; specialize (O1 x); specialize (C2 x); specialize (O3 x); specialize (C4 x); specialize (C5 x); specialize (C6 x); simpl in *; lia].
    split; [done|]. simpl. intros _. assert (w_err w6 = w_err w3) as E by congruence. split; [rewrite E; apply HF|]. left.
    eapply nng_fail_err; [|exact E]. eapply nng_fail_wle; [|exact HF]. wl.
Qed.
End Types.

Section Types2.
Context (cfg : config) (P : provider) (V : pview P) (ds : p_ds P) (n : nat) (G : geometry) (D : dist_fun).
Hypothesis (HP : provider_ok P V ds n G D).
Notation nng_fail := (nng_fail cfg P V ds n).
Notation prim_list := (prim_list n).
Notation prim_ok := (prim_ok n).

Lemma read_dgs_sat B nb c dgs : filled c dgs -> Rsat B (read_dgs (Some (Arr nb c)) (length dgs)) (fun l => l = dgs).
Proof.
  intros Hf. unfold read_dgs. apply (forR_sat0 B (fun i l => l = take i dgs)).
  - done.
  - intros i l Hi ->. destruct (lookup_lt_is_Some_2 dgs i Hi) as [d Hd].
    rewrite (aget_cells _ _ _ d) by (by eapply filled_lookup). cbn [Rbind Rsat]. by rewrite (take_S_r _ _ _ Hd).
  - intros l ->. by rewrite firstn_all.
Qed.

(** The buffer seedable. *)
Lemma Msat_seedable B len_prim prim rad w : prim_ok len_prim prim ->
  Msat B (match rad with
     | None => Mret (Some None)
     | Some _ =>
         let* s := malloc_arr nat (match prim with None => n | Some _ => len_prim end) in
         match s with
         | None => Mret None
         | Some _ =>
             let* s := lift (forR (match prim with None => n | Some _ => len_prim end) 0 s (fun i s =>
               let! x := match prim with None => Ok i | Some p => lget p i end in
               aset s i x)) in
             Mret (Some s)
         end
     end) w (fun a w' => wle w w' /\ w_err w' = w_err w /\
       match a with
       | None => own w' [] w /\ ~ no_fail w
       | Some s => own w' (arr_blk s) w /\ queries_at n len_prim prim rad (arr_blk s) (prim_list len_prim prim) (match prim with None => n | Some _ => len_prim end) s
       end).
Proof.
  intros Hp. pose proof (prim_arg _ _ _ Hp) as Harg. pose proof (argcells_length _ _ _ Harg) as Hlen.
  destruct rad as [r|].
  2:{ apply Msat_ret. splits; auto; [blk|]. unfold queries_at. simpl. auto. }
  set (nq := match prim with None => n | Some _ => len_prim end) in *. set (Q := prim_list len_prim prim) in *.
  apply Msat_bind. apply Msat_malloc_arr; [intros w1 L1 O1 E1 _ F1; apply Msat_ret; splits; auto|].
  intros w1 b L1 O1 E1 _. apply Msat_bind, Msat_lift. eapply Rsat_mono.
  { apply (forR_sat0 B (fun i o => exists c, o = Some (Arr b c) /\ length c = nq /\ filled c (take i Q)) _ _ _ (fun o => exists c, o = Some (Arr b c) /\ length c = nq /\ filled c Q)).
    - exists (fresh nat nq). splits; auto; [unfold fresh; by rewrite replicate_length|apply filled_nil].
    - intros i o Hi (c & -> & Hc & Hf). destruct (lookup_lt_is_Some_2 Q i) as [x Hx]; [lia|].
      assert ((match prim with None => Ok i | Some p => lget p i end) = Ok x) as ->.
      { destruct prim as [p|]; simpl in *.
        - apply lget_ok. unfold Q in Hx. apply lookup_take_Some in Hx. tauto.
        - unfold Q in Hx. rewrite lookup_seq_lt in Hx by done. simpl in Hx. congruence. }
      cbn [Rbind]. rewrite aset_cells by lia. cbn [Rsat]. eexists. split; [done|]. rewrite insert_length. split; [done|].
      rewrite (take_S_r _ _ _ Hx). apply filled_snoc'; auto; [rewrite take_length|]; lia.
    - intros o (c & -> & Hc & Hf). exists c. rewrite <- Hlen, firstn_all in Hf. splits; auto. }
  intros o (c & -> & Hc & Hf). apply Msat_ret. splits; auto. unfold queries_at. change (NngSize.prim_list n len_prim prim) with Q. splits; auto; [split; auto|simpl; lia].
Qed.

Lemma Msat_type_nng B nt size tcons tl len_prim prim rad w :
  types_ok n nt tcons tl -> prim_ok len_prim prim -> 0 < tsum nt tcons -> size <= n -> (N.of_nat (n * size) <= u64max)%N ->
  (N.of_nat n <= u32max \/ N.of_nat (tsum nt tcons) <= u32max)%N ->
  let Q := prim_list len_prim prim in
  let ok := typed_ok n tl tcons G rad nt size in
  Msat B (get_nng_with_type_constraint cfg P ds n size nt tcons tl len_prim prim rad) w (fun '(ec, nng) w' =>
    wle w w' /\
    (ec = ER_OK -> exists g, dg_rep cfg nng g /\ type_graph n tl tcons G rad (stable_nng cfg) nt size Q g /\ (exists v, v ∈ Q /\ ok v) /\
       tsum nt tcons <= size /\ own w' (dg_blocks nng) w /\ (w_err w' = w_err w \/ w_err w' = no_errst)) /\
    (ec <> ER_OK -> own w' [] w /\ e_code (w_err w') = ec /\
       (nng_fail (n * size) w ec w' \/
        (ec = ER_NO_SOLUTION /\ ((forall v, v ∈ Q -> ~ ok v) \/ exists t, t < nt /\ length (group tl n t) < tcon tcons t)) \/
        (ec = ER_INVALID_INPUT /\ size < tsum nt tcons)))).
Proof.
  intros Hty Hprim Hpos Hsn Hw64 Hw32 Q ok. unfold get_nng_with_type_constraint.
  eapply Msat_bind_mono; [by apply Msat_seedable|]. intros [seedable|] w1 (L1 & E1 & H1).
  2:{ destruct H1 as [O1 F1]. apply Msat_bind, Msat_make_error__. intros w2 L2 O2 E2 T2. apply Msat_ret. splits; auto; [wl|done|].
      intros _. splits; auto; [blk|by rewrite E2|]. left. split; [by rewrite E2|]. auto. }
  destruct H1 as [O1 HQ1]. remember (arr_blk seedable) as sb eqn:Esb. symmetry in Esb.
  apply Msat_bind. apply Msat_malloc_arr.
  { intros w2 L2 O2 E2 T2 F2. apply Msat_bind, Msat_free_arr; [rewrite Esb; blk|]. intros w3 L3 C3 E3 T3. rewrite Esb in C3.
    apply Msat_bind, Msat_make_error__. intros w4 L4 O4 E4 T4. apply Msat_ret. splits; auto; [wl|done|].
    intros _. splits; auto; [blk|by rewrite E4|]. left. split; [by rewrite E4|]. left. split; [done|]. intros F. apply F2. by eapply no_fail_wle. }
  intros w2 nb L2 O2 E2 T2.
  eapply Msat_bind_mono; [by apply (Msat_type_count n nt tcons tl Hty)|]. intros [ec tc] w3 (L3 & [(-> & O3 & E3 & Htc & Hsum & Hgrp)|(Hec & O3 & E3 & Hwhy)]).
  2:{ rewrite decide_True by done. apply Msat_bind, Msat_free_arr; [rewrite Esb; blk|]. intros w4 L4 C4 E4 T4. rewrite Esb in C4.
      apply Msat_bind, Msat_free_arr; [simpl; blk|]. intros w5 L5 C5 E5 T5. simpl in C5.
      apply Msat_ret. assert (w_err w5 = w_err w3) as E by congruence. splits; auto; [wl|done|]. intros _. splits; [blk|congruence|].
      destruct Hwhy as [[-> F]|[[-> (t & c & Ht & Hc & Hl)]|[-> Hl]]].
      - left. split; [congruence|]. left. split; [done|]. intros Hnf. apply F. eapply no_fail_wle; [exact Hnf|]. wl.
      - right. left. split; [done|]. right. exists t. split; [done|]. unfold tcon. by rewrite Hc.
      - right. right. auto. }
  rewrite decide_False by tauto. simpl in O2.
  eapply Msat_bind_mono with (P := fun r w' => match r with
      | inl st => types_inv cfg n G nt tcons tl len_prim prim rad w3 sb nb nt st w'
      | inr t => types_fail cfg P V ds n G nt size tcons tl len_prim prim rad w3 sb nb t w' end).
  { apply (loopM_sat B (types_inv cfg n G nt tcons tl len_prim prim rad w3 sb nb)
      (types_fail cfg P V ds n G nt size tcons tl len_prim prim rad w3 sb nb)); auto.
    - assert (filter (type_feasible n tl tcons G rad (used_types tcons 0)) (prim_list len_prim prim) = prim_list len_prim prim) as Hf0.
      { apply list_filter_all. apply Forall_forall. intros x _. constructor. }
      constructor; simpl; rewrite ?Hf0; auto; [apply Hprim|]. exists [], [], (fresh digraph nt). splits; auto.
      + unfold fresh. apply replicate_length.
      + apply filled_nil.
      + constructor.
      + constructor.
      + blk.
    - intros j st w4 Hj Hinv. apply (Msat_type_step cfg P V ds n G D HP nt size tcons tl len_prim prim rad Hty Hprim Hsum Hsn Hw64 Hgrp); auto. }
  intros [st|[ec st]] w4 Hst; destruct st as [[[nq sd] nbt] nz].
  2:{ destruct Hst as (L4 & Hec & Hsb & (dgs & c & -> & Hcf & -> & O4) & E4 & Hwhy).
      apply Msat_bind, Msat_free_tc; [blk|]. intros w5 L5 C5 E5. apply Msat_bind. rewrite (decide_False (P := ec = ER_OK)) by done. apply Msat_ret.
      apply Msat_bind, Msat_free_dgs with (dgs := dgs); auto; [blk|]. intros w6 L6 C6 E6.
      apply Msat_bind, Msat_free_arr; [simpl; blk|]. intros w7 L7 C7 E7 _. simpl in C7. rewrite decide_True by done.
      apply Msat_bind, Msat_free_arr; [rewrite Hsb; blk|]. intros w8 L8 C8 E8 _. rewrite Hsb in C8. apply Msat_ret.
      assert (w_err w8 = w_err w4) as E by congruence. splits; auto; [wl|done|]. intros _. splits; [blk|congruence|].
      destruct Hwhy as [HF|[-> Hno]].
      - left. eapply nng_fail_err; [|exact E]. eapply nng_fail_wle; [|exact HF]. wl.
      - right. left. split; [done|]. left. intros v Hv [Hf _]. by eapply Hno. }
  destruct Hst as [L4 E4 HQ4 Hne4 (dgs & rss & c & Hnbt & Hcl & Hcf & Hnz & Hdr & Htg & O4)]. simpl in HQ4, Hnbt, Hnz. subst nbt nz.
  set (okl := filter (type_feasible n tl tcons G rad (used_types tcons nt)) (prim_list len_prim prim)) in *.
  assert (StronglySorted lt okl) as Hoks by (apply sorted_filter, Hprim).
  assert (forall x, x ∈ okl -> x ∈ Q) as Hsub by (intros x [_ Hx]%elem_of_list_filter; done).
  assert (arr_blk sd = sb) as Hsb by apply HQ4.
  apply Msat_bind, Msat_free_tc; [blk|]. intros w5 L5 C5 E5.
  apply Msat_bind. rewrite (decide_True (P := ER_OK = ER_OK)) by done. apply Msat_bind, Msat_lift.
  eapply Rsat_mono; [by apply (tails_sat n nt size tcons len_prim prim rad Hprim Hsum Hsn Hw64 B sb okl)|].
  intros ts [Hts Hkept]. apply Msat_bind, Msat_lift. eapply Rsat_mono; [by apply read_dgs_sat|]. intros dgs' ->.
  assert (length dgs = length (used_types tcons nt)) as Hdl.
  { rewrite (Forall2_length _ _ _ Htg). by eapply Forall2_length. }
  assert (dgs <> []) as Hdne.
  { intros ->. simpl in Hdl. symmetry in Hdl. apply nil_length_inv in Hdl. pose proof (used_sum tcons nt ltac:(apply Hty)) as Hu. rewrite Hdl in Hu. simpl in Hu. lia. }
  eapply Msat_mono; [by apply (Msat_union cfg B dgs rss n (bool_decide (tc_sum tc < size)) ts.2)|].
  rewrite (tr_sum _ _ _ _ _ Htc).
  intros [ec out] w6 Hnew. pose proof Hnew as (L6 & T6 & Hnok & Hnbad). simpl in Hnok, Hnbad.
  set (keep := bool_decide (tsum nt tcons < size)) in *. set (g := union_rows keep ts.2 rss n) in *.
  assert (length g = n) as Hgl by (unfold g, union_rows; by rewrite fmap_length, seq_length).
  pose proof (fun v => union_typed n G nt tcons tl rad Hty keep ts.2 okl rss v Htg Hkept) as Hun. fold g in Hun. cbv zeta in Hun.
  assert (length (concat g) <= n * size) as Hgc.
  { apply concat_rows_le; [done|]. intros v Hv. destruct (Hun v Hv) as [Hu1 Hu2]. destruct (decide (v ∈ okl)) as [Hvo|Hvo]; [|rewrite Hu2 by done; simpl; lia].
    destruct (Hu1 Hvo) as (cs & _ & _ & Hl & ->). destruct keep; [lia|]. pose proof (filter_length (fun x => x <> v) (concat cs)). lia. }
  apply (Msat_bind B (free_dgs _ _)).
  destruct (decide (ec = ER_OK)) as [->|Hec].
  2:{ destruct (new_fail cfg P V ds n _ _ _ _ _ (n * size) Hnew Hgc Hec) as [O6 HF]. simpl in HF.
      apply Msat_free_dgs with (dgs := dgs); auto; [blk|]. intros w7 L7 C7 E7.
      apply Msat_bind, Msat_free_arr; [simpl; blk|]. intros w8 L8 C8 E8 _. simpl in C8. rewrite decide_True by done.
      apply Msat_bind, Msat_free_arr; [rewrite Hsb; blk|]. intros w9 L9 C9 E9 _. rewrite Hsb in C9. apply Msat_ret.
      assert (w_err w9 = w_err w6) as E by congruence. splits; auto; [wl|done|]. intros _. splits; [blk|rewrite E; apply HF|].
      left. eapply nng_fail_err; [|exact E]. eapply nng_fail_wle; [|exact HF]. wl. }
  destruct (Hnok eq_refl) as (O6 & Hrep & _ & E6 & _).
  apply Msat_free_dgs with (dgs := dgs); auto; [blk|]. intros w7 L7 C7 E7.
  apply Msat_bind, Msat_free_arr; [simpl; blk|]. intros w8 L8 C8 E8 _. simpl in C8. rewrite (decide_False (P := ER_OK <> ER_OK)) by tauto.
  destruct (decide (tsum nt tcons < size)) as [Hlt|Hlt].
  - assert (keep = true) as Hkeep by (by apply bool_decide_eq_true_2). rewrite Hkeep in *.
    eapply Msat_bind_mono.
    { apply (Msat_add_general cfg P V ds n G D HP nt size tcons tl len_prim prim rad Hty Hprim Hsum Hsn Hw64 Hgrp B sb nq sd out g w8); auto.
      - intros v Hv Hvo. destruct (Hun v Hv) as [Hu1 _]. destruct (Hu1 Hvo) as (cs & ? & ? & ? & ?). exists cs. splits; auto.
      - intros v Hv. apply Hun. done.
      - blk. }
    intros [ec nng] w9 (L9 & [Hrok Hrbad] & C9). simpl in Hrok, Hrbad, C9. destruct (decide (ec = ER_OK)) as [->|Hec].
    { rewrite decide_False by tauto.
      destruct (Hrok eq_refl) as (g' & Hrep' & Hg' & Hex & E9).
      apply Msat_bind, (Msat_finish_nng cfg B nng g' w9 _ Hrep'). intros nng2 Hrep2 Hb2. apply Msat_ret.
      splits; auto; [wl| |done]. intros _. eexists. split; [exact Hrep2|].
      splits; auto.
      * by apply type_graph_arrange.
      * rewrite Hb2. blk.
      * destruct E9 as [E9|E9]; [|auto]. destruct E6 as [E6|E6]; [left|right]; congruence. }
    rewrite decide_True by done. apply Msat_ret. splits; auto; [wl|done|].
    + intros _. destruct (Hrbad Hec) as [E9 Hwhy]. splits; auto; [blk|].
      destruct Hwhy as [HF|[-> Hno]].
      * left. eapply nng_fail_wle; [|exact HF]. wl.
      * right. left. auto.
  - assert (keep = false) as Hkeep by (by apply bool_decide_eq_false_2). rewrite Hkeep in *.
    assert (forall v, v ∈ okl <-> v ∈ Q /\ ok v) as Hoo.
    { intros v. unfold okl, ok, typed_ok. rewrite elem_of_list_filter. split; [intros []; splits; auto; lia|tauto]. }
    apply Msat_bind, Msat_free_arr; [rewrite Hsb; blk|]. intros w9 L9 C9 E9 _. rewrite Hsb in C9.
    apply Msat_bind, (Msat_finish_nng cfg B out g w9 _ Hrep). intros out2 Hrep2 Hb2. apply Msat_ret. splits; auto; [wl| |done].
    intros _. exists (arrange_rows (stable_nng cfg) g). splits; auto; [| |rewrite Hb2; blk|].
    + apply type_graph_arrange. constructor; auto.
      * intros v Hv Hf. assert (v < n) as Hvn. { destruct Hprim as (_ & _ & _ & HQl). rewrite Forall_forall in HQl. auto. }
        destruct (Hun v Hvn) as [Hu1 _]. destruct (Hu1 ltac:(by apply Hoo)) as (cs & Hcs & _ & _ & Hadj). exists cs, []. split; [done|].
        rewrite decide_False by done. split; [done|]. by rewrite app_nil_r.
      * intros v Hv. destruct (decide (v < n)) as [Hvn|Hvn].
        -- apply (Hun v Hvn). by rewrite Hoo.
        -- unfold adj. rewrite lookup_ge_None_2; [done|]. lia.
    + destruct okl as [|v0 l]; [done|]. exists v0. apply Hoo. left.
    + destruct E6 as [E6|E6]; [left|right]; congruence.
Qed.
End Types2.
