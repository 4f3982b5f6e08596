(** Nearest neighbour graphs: iscc_make_nng, self matches, and the graph for a
    size constraint. *)

From stdpp Require Import prelude list sorting.
From Coq Require Import NArith ZArith.
From Verif Require Import Base World Mem Digraph DigraphRep DigraphOps Float Spi Options Arrays GraphSpec AssignSpec Seeds SeedsExcl SortIdx Nng NngGraph.

(** ** Self matches *)

(** The row of [v] after iscc_ensure_self_match. *)
Definition self_row (v : nat) (r : list nat) : list nat :=
  if decide (r = [] \/ v ∈ r) then r else <[length r - 1 := v]> r.

Definition self_rows (ss : list nat) (g : list (list nat)) : list (list nat) :=
  imap (fun v r => if decide (v ∈ ss) then self_row v r else r) g.

Lemma self_row_length v r : length (self_row v r) = length r.
Proof. unfold self_row. case_decide; [done|]. by rewrite insert_length. Qed.

Lemma self_row_in v r : r <> [] -> v ∈ self_row v r.
Proof.
  intros Hr. unfold self_row. case_decide as H; [tauto|].
  apply (elem_of_list_lookup_2 _ (length r - 1)). apply list_lookup_insert. destruct r; [done|]. simpl. lia.
Qed.

Lemma self_row_idem v r : self_row v (self_row v r) = self_row v r.
Proof.
  destruct r as [|x r']; [done|]. set (r := x :: r'). unfold self_row at 1. rewrite decide_True; [done|]. right. by apply self_row_in.
Qed.

Lemma self_rows_length ss g : length (self_rows ss g) = length g.
Proof. apply imap_length. Qed.

Lemma self_rows_lookup ss g v r : g !! v = Some r -> self_rows ss g !! v = Some (if decide (v ∈ ss) then self_row v r else r).
Proof. intros H. unfold self_rows. by rewrite list_lookup_imap, H. Qed.

Lemma self_rows_adj ss g v : adj (self_rows ss g) v = if decide (v ∈ ss) then self_row v (adj g v) else adj g v.
Proof.
  unfold adj, self_rows. rewrite list_lookup_imap. destruct (g !! v) as [r|]; simpl; [done|].
  unfold self_row. rewrite (decide_True _ _ (or_introl eq_refl)). by destruct (decide _).
Qed.

Lemma self_rows_nil g : self_rows [] g = g.
Proof.
  apply list_eq. intros i. unfold self_rows. rewrite list_lookup_imap. destruct (g !! i) as [r|]; done.
Qed.

Lemma self_rows_snoc ss v r g : g !! v = Some r ->
  self_rows (ss ++ [v]) g = <[v := self_row v (if decide (v ∈ ss) then self_row v r else r)]> (self_rows ss g).
Proof.
  intros Hv. apply list_eq. intros i. destruct (decide (i = v)) as [->|Hne].
  - rewrite list_lookup_insert by (rewrite self_rows_length; by eapply lookup_lt_Some).
    rewrite (self_rows_lookup _ _ _ _ Hv). rewrite decide_True by set_solver. destruct (decide (v ∈ ss)); [|done]. by rewrite self_row_idem.
  - rewrite list_lookup_insert_ne by done. unfold self_rows. rewrite !list_lookup_imap. destruct (g !! i); [|done]. simpl. f_equal.
    destruct (decide (i ∈ ss)) as [H|H]; [rewrite decide_True by set_solver; done|].
    rewrite decide_False; [done|]. set_solver.
Qed.

Section Self.
Context (cfg : config).
Notation dg_rep := (dg_rep cfg).

Lemma self_match_one_sat B dg g v r : dg_rep dg g -> g !! v = Some r ->
  Rsat B (self_match_one v dg) (fun dg' => dg_rep dg' (<[v := self_row v r]> g) /\ dg_blocks dg' = dg_blocks dg).
Proof.
  intros H Hv. assert (v < length g) as Hlt by (by eapply lookup_lt_Some).
  unfold self_match_one. rewrite (rep_tail_get _ _ _ v H), (rep_tail_get _ _ _ (v + 1) H) by lia. cbn [Rbind].
  rewrite Nat.add_1_r, (offs_S _ _ _ Hv). case_decide as Hz.
  { assert (r = []) as -> by (apply nil_length_inv; lia). simpl. rewrite list_insert_id; [done|]. done. }
  unfold loop_ptr. rewrite decide_False by lia. replace (offs g v + length r - offs g v) with (length r) by lia.
  rewrite (loopR_foldXR (fun x (_ : unit) => if decide (x = v) then Ok (inr tt) else Ok (inl tt)) _ r)
    by (intros j x Hj; eapply rep_head_get; eauto).
  apply Rsat_bind. eapply Rsat_mono.
  - apply (foldXR_sat B (fun l (_ : unit) => v ∉ l) (fun _ : unit => v ∈ r)).
    + apply not_elem_of_nil.
    + intros l x l' [] Hl Hn. case_decide as Hx; simpl.
      * subst x. rewrite Hl. set_solver.
      * set_solver.
  - intros [[]|[]] Hin; simpl.
    + destruct (rep_set cfg dg g v r (length r - 1) v H Hv) as (h & Hh & Hb & Hrep); [lia|done|].
      replace (offs g v + length r - 1) with (offs g v + (length r - 1)) by lia. rewrite Hh. cbn [Rbind]. simpl.
      unfold self_row. rewrite decide_False; [|intros [-> |?]; [simpl in *; lia|done]]. split; [done|].
      unfold dg_blocks. simpl. by rewrite Hb.
    + unfold self_row. rewrite decide_True by auto. rewrite list_insert_id by done. done.
Qed.

Lemma ensure_self_match_sat B dg g lens s S0 : dg_rep dg g -> argcells s lens S0 -> Forall (fun x => x < length g) S0 ->
  Rsat B (ensure_self_match dg lens s) (fun dg' => dg_rep dg' (self_rows S0 g) /\ dg_blocks dg' = dg_blocks dg).
Proof.
  intros H Hs Hlt. pose proof (argcells_length _ _ _ Hs) as HlS. unfold ensure_self_match.
  assert (forall j v d, S0 !! j = Some v -> dg_rep d (self_rows (take j S0) g) /\ dg_blocks d = dg_blocks dg ->
    Rsat B (self_match_one v d) (fun dg' => dg_rep dg' (self_rows (take (S j) S0) g) /\ dg_blocks dg' = dg_blocks dg)) as Hstep.
  { intros j v d Hj [Hr Hb]. assert (v < length g) as Hv by (eapply Forall_lookup_1 in Hlt; [|exact Hj]; done).
    destruct (lookup_lt_is_Some_2 g v Hv) as [r Hgv]. rewrite (take_S_r _ _ _ Hj), (self_rows_snoc _ _ _ _ Hgv).
    eapply Rsat_mono; [apply self_match_one_sat; [exact Hr|by apply self_rows_lookup]|]. intros d' [? ?]. split; [done|congruence]. }
  destruct s as [c|].
  - destruct Hs as [Hf _]. apply (forR_sat0 B (fun j d => dg_rep d (self_rows (take j S0) g) /\ dg_blocks d = dg_blocks dg)).
    + rewrite take_0, self_rows_nil. auto.
    + intros j d Hj Hd. destruct (lookup_lt_is_Some_2 S0 j) as [v Hv]; [lia|].
      rewrite (cget_ok _ _ v) by (by eapply filled_lookup). cbn [Rbind]. by apply Hstep.
    + intros d Hd. by rewrite <- HlS, firstn_all in Hd.
  - simpl in Hs. apply (forR_sat0 B (fun j d => dg_rep d (self_rows (take j S0) g) /\ dg_blocks d = dg_blocks dg)).
    + rewrite take_0, self_rows_nil. auto.
    + intros j d Hj Hd. apply Hstep; [|done]. subst S0. by apply lookup_seq_lt.
    + intros d Hd. by rewrite <- HlS, firstn_all in Hd.
Qed.
End Self.

Lemma submseteq_nodup (l k : list nat) : l ⊆+ k -> NoDup k -> NoDup l.
Proof. intros (r & Hr)%submseteq_Permutation Hk. rewrite Hr in Hk. by apply NoDup_app in Hk as [? _]. Qed.

Lemma nearest_self_nodup (G : geometry) S k v c : NoDup S -> nearest G S k v c -> NoDup c /\ NoDup (self_row v c).
Proof.
  intros HS Hc. assert (NoDup c) as Hn. { eapply submseteq_nodup; [apply Hc|done]. } split; [done|].
  unfold self_row. case_decide as H; [done|]. destruct (decide (c = [])) as [->|Hc0]; [tauto|].
  assert (v ∉ c) by tauto. destruct (exists_last Hc0) as (c' & x & ->). rewrite app_length. simpl.
  replace (length c' + 1 - 1) with (length c' + 0) by lia. rewrite insert_app_r. simpl.
  apply NoDup_app in Hn as (Hn1 & _ & _). apply NoDup_app. splits; auto.
  - intros y Hy ->%elem_of_list_singleton. set_solver.
  - apply NoDup_singleton.
Qed.

(** ** Sorting the rows *)

(** The first [k] rows sorted. *)
Definition sort_rows (k : nat) (g : list (list nat)) : list (list nat) :=
  imap (fun v r => if decide (v < k) then arrange true r else r) g.

Definition arrange_rows (st : bool) (g : list (list nat)) : list (list nat) := arrange st <$> g.

Lemma arrange_rows_length st g : length (arrange_rows st g) = length g.
Proof. apply fmap_length. Qed.

Lemma arrange_rows_adj st g v : adj (arrange_rows st g) v = arrange st (adj g v).
Proof. unfold adj, arrange_rows. rewrite list_lookup_fmap. destruct (g !! v); simpl; [done|]. by rewrite arrange_nil. Qed.

Lemma sort_rows_0 g : sort_rows 0 g = g.
Proof. apply list_eq. intros i. unfold sort_rows. rewrite list_lookup_imap. by destruct (g !! i). Qed.

Lemma sort_rows_all g : sort_rows (length g) g = arrange_rows true g.
Proof.
  apply list_eq. intros i. unfold sort_rows, arrange_rows. rewrite list_lookup_imap, list_lookup_fmap.
  destruct (g !! i) as [r|] eqn:E; simpl; [|done]. apply lookup_lt_Some in E. by rewrite decide_True.
Qed.

Lemma sort_rows_S g v r : g !! v = Some r -> sort_rows (S v) g = <[v := arrange true r]> (sort_rows v g).
Proof.
  intros Hv. apply list_eq. intros i. destruct (decide (i = v)) as [->|Hne].
  - rewrite list_lookup_insert by (unfold sort_rows; rewrite imap_length; by eapply lookup_lt_Some).
    unfold sort_rows. rewrite list_lookup_imap, Hv. simpl. rewrite decide_True by lia. done.
  - rewrite list_lookup_insert_ne by done. unfold sort_rows. rewrite !list_lookup_imap. destruct (g !! i); simpl; [|done].
    f_equal. destruct (decide (i < v)); [by rewrite decide_True by lia|by rewrite decide_False by lia].
Qed.

Lemma sort_short r : length r <= 1 -> arrange true r = r.
Proof. intros H. destruct r as [|x [|y r]]; [done|done|simpl in H; lia]. Qed.

Lemma offs_insert_self (g : list (list nat)) v r : offs (<[v := r]> g) v = offs g v.
Proof. unfold offs. by rewrite take_insert by lia. Qed.

Section Sort.
Context (cfg : config).
Notation dg_rep := (dg_rep cfg).

Lemma get_run_row B dg g v r : dg_rep dg g -> g !! v = Some r -> forall cnt j, j + cnt <= length r ->
  Rsat B (get_run (dg_head dg) (offs g v + j) cnt) (fun l => l = take cnt (drop j r)).
Proof.
  intros H Hv. induction cnt as [|cnt IH]; intros j Hj; simpl; [done|].
  destruct (lookup_lt_is_Some_2 r j) as [x Hx]; [lia|].
  rewrite (rep_head_get cfg dg g v r j x H Hv Hx). cbn [Rbind]. apply Rsat_bind. eapply Rsat_mono.
  - rewrite plus_n_Sm. apply IH. lia.
  - intros l ->. simpl. by rewrite (drop_S _ _ _ Hx).
Qed.

Lemma put_run_row B g v : forall l dg pre rest, dg_rep dg (<[v := pre ++ rest]> g) -> v < length g -> length rest = length l ->
  Forall (fun x => x < length g) l ->
  Rsat B (put_run (dg_head dg) (offs (<[v := pre ++ rest]> g) v + length pre) l) (fun h =>
    arr_blk h = arr_blk (dg_head dg) /\ dg_rep (DG (dg_n dg) (dg_max dg) h (dg_tail dg)) (<[v := pre ++ l]> g)).
Proof.
  induction l as [|x l IH]; intros dg pre rest H Hv Hl Hx; simpl.
  { destruct rest; [|done]. split; [done|]. by destruct dg. }
  destruct rest as [|y rest]; [done|]. apply Forall_cons in Hx as [Hx Hxs].
  destruct (rep_set cfg dg (<[v:=pre ++ y :: rest]> g) v (pre ++ y :: rest) (length pre) x H) as (h & Hh & Hb & Hr).
  { by apply list_lookup_insert. } { rewrite app_length. simpl. lia. } { by rewrite insert_length. }
  rewrite Hh. cbn [Rbind]. rewrite list_insert_insert in Hr.
  replace (<[length pre:=x]> (pre ++ y :: rest)) with ((pre ++ [x]) ++ rest) in Hr.
  2:{ rewrite <- (Nat.add_0_r (length pre)), insert_app_r. by rewrite <- app_assoc. }
  replace (S (offs (<[v:=pre ++ y :: rest]> g) v + length pre)) with (offs (<[v:=(pre ++ [x]) ++ rest]> g) v + length (pre ++ [x])).
  2:{ rewrite app_length. simpl. rewrite !offs_insert_self. lia. }
  eapply Rsat_mono; [apply (IH (DG (dg_n dg) (dg_max dg) h (dg_tail dg)) (pre ++ [x]) rest); auto|].
  cbn [dg_head dg_n dg_max dg_tail]. intros h' [Hb' Hr']. split; [congruence|]. by rewrite <- app_assoc in Hr'.
Qed.

Lemma sort_nng_sat B dg g : dg_rep dg g -> Rsat B (sort_nng dg) (fun dg' => dg_rep dg' (arrange_rows true g) /\ dg_blocks dg' = dg_blocks dg).
Proof.
  intros H. unfold sort_nng. rewrite (rep_n _ _ _ H).
  apply (forR_sat0 B (fun k d => dg_rep d (sort_rows k g) /\ dg_blocks d = dg_blocks dg)).
  - by rewrite sort_rows_0.
  - intros v d Hv [Hr Hb]. destruct (lookup_lt_is_Some_2 g v Hv) as [r Hgv].
    assert (sort_rows v g !! v = Some r) as Hsv.
    { unfold sort_rows. rewrite list_lookup_imap, Hgv. simpl. by rewrite decide_False by lia. }
    assert (length (sort_rows v g) = length g) as Hlen by apply imap_length.
    rewrite (sort_rows_S _ _ _ Hgv).
    rewrite (rep_tail_get _ _ _ v Hr), (rep_tail_get _ _ _ (v + 1) Hr) by lia. cbn [Rbind].
    rewrite Nat.add_1_r, (offs_S _ _ _ Hsv). rewrite decide_False by lia.
    replace (offs (sort_rows v g) v + length r - offs (sort_rows v g) v) with (length r) by lia.
    case_decide as Hc.
    + unfold qsort_run. apply Rsat_bind. apply Rsat_bind. eapply Rsat_mono.
      { rewrite <- (Nat.add_0_r (offs _ _)). apply (get_run_row B d _ v r Hr Hsv). lia. }
      intros l ->. rewrite drop_0, firstn_all. eapply Rsat_mono.
      { rewrite <- (list_insert_id (sort_rows v g) v ([] ++ r) Hsv) at 1. rewrite <- (Nat.add_0_r (offs _ _)).
        apply (put_run_row B (sort_rows v g) v _ d [] r); [by rewrite list_insert_id|lia|by rewrite merge_sort_Permutation|].
        rewrite merge_sort_Permutation. apply Forall_forall. intros x Hx. rewrite Hlen.
        assert (x ∈ adj (sort_rows v g) v) as Hx' by (unfold adj; by rewrite Hsv). rewrite <- Hlen. by eapply (adj_head_lt cfg d). }
      intros h [Hb' Hr']. simpl. split; [exact Hr'|]. rewrite <- Hb. unfold dg_blocks. simpl. by rewrite Hb'.
    + rewrite sort_short by lia. rewrite list_insert_id by done. done.
  - intros d. by rewrite sort_rows_all.
Qed.

Lemma Msat_finish_nng B dg g w (Q : digraph -> world -> Prop) : dg_rep dg g ->
  (forall dg', dg_rep dg' (arrange_rows (stable_nng cfg) g) -> dg_blocks dg' = dg_blocks dg -> Q dg' w) ->
  Msat B (finish_nng cfg dg) w Q.
Proof.
  intros H HQ. unfold finish_nng. destruct (stable_nng cfg).
  - apply Msat_lift. eapply Rsat_mono; [by apply sort_nng_sat|]. intros dg' [? ?]. auto.
  - apply Msat_ret. apply HQ; [|done]. unfold arrange_rows, arrange. by rewrite list_fmap_id.
Qed.
End Sort.

Section Build2.
Context (cfg : config) (P : provider) (V : pview P) (ds : p_ds P) (n : nat) (G : geometry) (D : dist_fun).
Hypothesis (HP : provider_ok P V ds n G D).
Notation solid w := (no_fail w /\ provider_reliable P V ds n).
Notation dg_rep := (dg_rep cfg).
Notation nng_fail := (nng_fail cfg P V ds n).
Notation nng_post := (nng_post cfg P V ds n G).
Notation nn_graph := (nn_graph n G).
Notation feasible := (feasible G).

Lemma nng_fail_wle arcs w w1 ec w' : wle w w1 -> nng_fail arcs w1 ec w' -> nng_fail arcs w ec w'.
Proof.
  intros L [He Hr]. split; [done|]. destruct Hr as [[? F]|[?|[? F]]]; [left|auto|right; right].
  - split; [done|]. intros ?. apply F. by eapply no_fail_wle.
  - split; [done|]. intros ?. apply F. by eapply solid_wle.
Qed.

Lemma nng_fail_err arcs w ec w' w'' : nng_fail arcs w ec w' -> w_err w'' = w_err w' -> nng_fail arcs w ec w''.
Proof. intros [He Hr] E. split; [by rewrite E|done]. Qed.

Lemma Msat_make_nng B lens s S lenq q Q k rad outq w :
  argcells s lens S -> S <> [] -> Forall (fun x => x < n) S -> NoDup S ->
  argcells q lenq Q -> Q <> [] -> StronglySorted lt Q -> Forall (fun x => x < n) Q ->
  0 < k -> k <= length S -> (N.of_nat (lenq * k) <= u64max)%N ->
  (forall r, rad = Some r -> match outq with Some a => lenq <= length (a_cells a) | None => True end) ->
  Msat B (make_nng cfg P ds n lens s lenq q k rad outq) w (nng_post S k rad Q outq w).
Proof.
  intros Hs HneS HltS HndS Hq Hne HsQ HltQ Hk Hks Hw Hout. unfold make_nng.
  eapply Msat_bind_mono; [by eapply (Msat_nn_init P V ds n G D HP)|]. intros [o|] w1 (L1 & E1 & HO).
  2:{ destruct HO as [O1 F1]. apply Msat_bind. apply Msat_make_error__. intros w2 L2 O2 E2 T2. apply Msat_ret.
      unfold NngGraph.nng_post. splits; eauto; [done|]. intros _. split; [blk|]. split; [by rewrite E2|]. auto. }
  destruct HO as (O1 & Hg & HSo). subst S.
  eapply Msat_bind_mono.
  { apply (Msat_make_nng_so cfg P V ds n G D HP) with (Q := Q); auto. blk. }
  intros [[[ec num] outq'] nng] w2 (L2 & Hb2 & Hok & Hbad).
  case_decide as Hec.
  - destruct (Hbad Hec) as [O2 HF].
    eapply Msat_bind_mono; [apply (Msat_close P V ds n G D HP); [done|blk]|]. intros c w3 (L3 & E3 & C3 & _).
    apply Msat_ret. unfold NngGraph.nng_post. splits; eauto; [done|]. intros _. split; [blk|].
    eapply nng_fail_err; [|exact E3]. by eapply nng_fail_wle.
  - assert (ec = ER_OK) as -> by (destruct (decide (ec = ER_OK)); tauto).
    destruct (Hok eq_refl) as (ok & g & Hrep & HG & -> & O2 & E2 & Ho).
    eapply Msat_bind_mono; [apply (Msat_close P V ds n G D HP); [done|blk]|]. intros c w3 (L3 & E3 & C3 & Hcf). destruct c.
    + apply Msat_ret. unfold NngGraph.nng_post. splits; eauto; [|done]. intros _. exists ok, g. splits; auto; [blk|congruence].
    + apply Msat_bind. apply Msat_free_digraph; [blk|]. intros w4 L4 C4 E4 T4.
      apply Msat_bind. apply Msat_make_error__. intros w5 L5 O5 E5 T5. apply Msat_ret.
      unfold NngGraph.nng_post. splits; eauto; [done|]. intros _. split; [blk|]. split; [by rewrite E5|]. right. right. split; [done|].
      intros Hsol. apply Hcf; [done|]. eapply solid_wle; [|exact Hsol]. eauto.
Qed.

(** Elements of primary_data_points, or all points. *)
Definition prim_list (len : nat) (prim : option (list nat)) : list nat :=
  match prim with None => seq 0 n | Some l => take len l end.
Definition prim_ok (len : nat) (prim : option (list nat)) : Prop :=
  match prim with None => True | Some l => len <= length l end /\
  prim_list len prim <> [] /\ StronglySorted lt (prim_list len prim) /\ Forall (fun x => x < n) (prim_list len prim).

Lemma prim_arg len prim : prim_ok len prim ->
  argcells (ucells prim) (match prim with None => n | Some _ => len end) (prim_list len prim).
Proof.
  intros (H & _). destruct prim as [l|]; simpl in *; [|done]. split; [|rewrite take_length; lia].
  exists (Some <$> drop len l). by rewrite <- fmap_app, take_drop.
Qed.

Lemma prim_len len prim : prim_ok len prim -> length (prim_list len prim) <= n.
Proof.
  intros (_ & _ & Hs & Hl). rewrite <- (seq_length n 0). apply submseteq_length, NoDup_submseteq; [by apply sorted_NoDup|].
  intros x Hx. rewrite Forall_forall in Hl. apply elem_of_seq. specialize (Hl x Hx). lia.
Qed.

(** The graph for a size constraint: arcs from each feasible query to [k - 1]
    others, its nearest neighbours. [st]: the rows are sorted by index. *)
Record size_graph (st : bool) (k : nat) (rad : option double) (Q : list nat) (g : list (list nat)) : Prop := {
  sg_len : length g = n;
  sg_row : forall v, v ∈ Q -> feasible (seq 0 n) k rad v ->
    exists c, nearest G (seq 0 n) k v c /\ Forall (fun x => within_opt G rad v x = true) c /\
      adj g v = arrange st (filter (fun x => x <> v) (self_row v c));
  sg_none : forall v, ~ (v ∈ Q /\ feasible (seq 0 n) k rad v) -> adj g v = []
}.

Lemma concat_nil_adj g v : concat g = [] -> adj g v = [].
Proof.
  intros H. unfold adj. destruct (g !! v) as [r|] eqn:E; [|done]. simpl. destruct r as [|x r]; [done|].
  pose proof (concat_lookup g v (x :: r) 0 x E eq_refl) as Hc. by rewrite H in Hc.
Qed.

Lemma Msat_size_nng B size len_prim prim rad w :
  0 < n -> prim_ok len_prim prim -> 0 < size -> size <= n -> (N.of_nat (n * size) <= u64max)%N ->
  let Q := prim_list len_prim prim in
  Msat B (get_nng_with_size_constraint cfg P ds n size len_prim prim rad) w (fun '(ec, nng) w' =>
    wle w w' /\
    (ec = ER_OK -> exists g, dg_rep nng g /\ size_graph (stable_nng cfg) size rad Q g /\ (exists v, v ∈ Q /\ feasible (seq 0 n) size rad v) /\
       own w' (dg_blocks nng) w /\ w_err w' = w_err w) /\
    (ec <> ER_OK -> own w' [] w /\ e_code (w_err w') = ec /\
       (nng_fail (n * size) w ec w' \/
        (ec = ER_NO_SOLUTION /\ forall v, v ∈ Q -> ~ feasible (seq 0 n) size rad v)))).
Proof.
  intros Hn Hp Hk Hks Hw Q. pose proof (prim_arg _ _ Hp) as Harg. pose proof (prim_len _ _ Hp) as HlQ. fold Q in Harg, HlQ.
  pose proof Hp as (_ & HneQ & HsQ & HltQ). fold Q in HneQ, HsQ, HltQ.
  pose proof (argcells_length _ _ _ Harg) as HlenQ.
  unfold get_nng_with_size_constraint.
  eapply Msat_bind_mono.
  { apply Msat_make_nng with (S := seq 0 n) (Q := Q); auto.
    - done.
    - destruct n; [lia|done].
    - apply Forall_forall. intros x Hx%elem_of_seq. lia.
    - apply NoDup_seq.
    - by rewrite seq_length.
    - rewrite <- HlenQ. nia. }
  intros [[[ec num] outq'] nng] w1 (L1 & _ & Hok & Hbad).
  case_decide as Hec.
  { destruct (Hbad Hec) as [O1 HF]. apply Msat_ret. splits; eauto; [done|]. intros _. splits; auto; [apply HF|].
    left. destruct HF as [He HF]. split; [done|]. destruct HF as [?|[[? Ht]|?]]; auto. right. left. split; [done|].
    eapply too_many_mono; [|exact Ht]. nia. }
  assert (ec = ER_OK) as -> by (destruct (decide (ec = ER_OK)); tauto). clear Hbad.
  destruct (Hok eq_refl) as (ok & g & Hrep & HG & -> & O1 & E1 & _). clear Hok.
  assert (forall v, v ∈ ok <-> feasible (seq 0 n) size rad v /\ v ∈ Q) as Hin.
  { intros v. rewrite (ng_ok _ _ _ _ _ _ _ _ HG). apply elem_of_list_filter. }
  apply Msat_bind, Msat_lift. rewrite (is_empty_rep cfg _ _ Hrep). simpl.
  case_bool_decide as Hemp.
  { apply Msat_bind. apply Msat_free_digraph; [blk|]. intros w2 L2 C2 E2 T2.
    apply Msat_bind. apply Msat_make_error__. intros w3 L3 O3 E3 T3. apply Msat_ret.
    splits; eauto; [done|]. intros _. splits; [blk|by rewrite E3|]. right. split; [done|].
    intros v Hv Hf. assert (v ∈ ok) as Hvo by (by apply Hin). destruct (ng_row _ _ _ _ _ _ _ _ HG v Hvo) as [Hnr _].
    pose proof (nst_len _ _ _ _ _ Hnr) as Hl. rewrite concat_nil_adj in Hl by done. simpl in Hl. lia. }
  assert (length g = n) as Hgl by apply HG.
  apply Msat_bind, Msat_lift. eapply Rsat_mono.
  { apply (ensure_self_match_sat cfg B nng g n None (seq 0 n)); [done|done|]. apply Forall_forall. intros x Hx%elem_of_seq. lia. }
  intros nng2 [Hrep2 Hb2].
  eapply Msat_bind_mono; [apply (Msat_delete_loops cfg B nng2 _ w1 Hrep2); rewrite Hb2; blk|].
  intros [ec nng3] w2 (L2 & T2 & C2 & Hok & Hbad). rewrite Hb2 in C2. simpl in *.
  case_decide as Hec2.
  { destruct (Hbad Hec2) as (-> & F2 & Er). apply Msat_bind. apply Msat_free_digraph; [blk|]. intros w3 L3 C3 E3 T3.
    apply Msat_ret. splits; eauto; [done|]. intros _. splits; [blk|by rewrite E3|]. left. split; [by rewrite E3|]. left. split; [done|].
    intros ?. apply F2. by eapply no_fail_wle. }
  assert (ec = ER_OK) as -> by (destruct (decide (ec = ER_OK)); tauto). destruct (Hok eq_refl) as (Hrep3 & _ & E2).
  apply Msat_bind, (Msat_finish_nng cfg B nng3 _ w2 _ Hrep3). intros nng4 Hrep4 Hb4.
  apply Msat_ret. splits; eauto; [|done]. intros _. exists (arrange_rows (stable_nng cfg) (rows_no_loops (self_rows (seq 0 n) g))).
  assert (forall v, v < n -> adj (rows_no_loops (self_rows (seq 0 n) g)) v = filter (fun x => x <> v) (self_row v (adj g v))) as Hadj.
  { intros v Hv. rewrite row_no_loops_spec by (rewrite self_rows_length; lia). unfold spec_no_loops.
    rewrite self_rows_adj, decide_True by (apply elem_of_seq; lia). done. }
  splits; auto; [| |rewrite Hb4; blk|congruence].
  - constructor.
    + by rewrite arrange_rows_length, rows_no_loops_length, self_rows_length.
    + intros v Hv Hf. exists (adj g v). assert (v ∈ ok) as Hvo by (by apply Hin). destruct (ng_row _ _ _ _ _ _ _ _ HG v Hvo) as [Hnr Hwi].
      splits; auto. rewrite arrange_rows_adj. f_equal. apply Hadj. rewrite Forall_forall in HltQ. auto.
    + intros v Hv. rewrite arrange_rows_adj. rewrite <- (arrange_nil (stable_nng cfg)). f_equal. destruct (decide (v < n)) as [Hvn|Hvn].
      * rewrite Hadj by done. rewrite (ng_none _ _ _ _ _ _ _ _ HG); [done|]. intros Hvo. apply Hv. apply Hin in Hvo. tauto.
      * unfold adj. rewrite lookup_ge_None_2; [done|]. rewrite rows_no_loops_length, self_rows_length. lia.
  - destruct ok as [|v ok'].
    + exfalso. apply Hemp.
      assert (forall v, adj g v = []) as Hall by (intros v; apply (ng_none _ _ _ _ _ _ _ _ HG); apply not_elem_of_nil).
      clear -Hall. revert Hall. induction g as [|r g IH]; intros Hall; [done|]. simpl. pose proof (Hall 0) as H0. unfold adj in H0. simpl in H0. subst r.
      simpl. apply IH. intros v. apply (Hall (S v)).
    + exists v. assert (v ∈ v :: ok') as Hv by set_solver. apply Hin in Hv. tauto.
Qed.

(** Consequences for one row. *)
Lemma size_graph_row st k rad Q g v : size_graph st k rad Q g -> 0 < k -> v < n -> v ∈ Q -> feasible (seq 0 n) k rad v ->
  NoDup (adj g v) /\ length (adj g v) = k - 1 /\ v ∉ adj g v /\ Forall (fun x => x < n) (adj g v).
Proof.
  intros HG Hk Hvn Hv Hf. destruct (sg_row _ _ _ _ _ HG v Hv Hf) as (c & Hc & Hw & ->).
  rewrite arrange_NoDup, arrange_length, elem_of_arrange, arrange_perm.
  destruct (nearest_self_nodup G (seq 0 n) k v c) as [Hnd Hns]; [apply NoDup_seq|done|].
  assert (v ∈ self_row v c) as Hvin. { apply self_row_in. intros ->. pose proof (nst_len _ _ _ _ _ Hc). simpl in *. lia. }
  splits.
  - by apply NoDup_filter.
  - rewrite <- (nst_len _ _ _ _ _ Hc), <- (self_row_length v c).
    apply elem_of_Permutation in Hvin as [l Hl]. assert (NoDup (v :: l)) as Hnl by (by rewrite <- Hl). inversion_clear Hnl.
    assert (filter (fun x => x <> v) (self_row v c) ≡ₚ l) as ->.
    { rewrite Hl. rewrite filter_cons_False by tauto. rewrite list_filter_all; [done|]. apply Forall_forall. intros x Hx ->. done. }
    rewrite Hl. simpl. lia.
  - rewrite elem_of_list_filter. tauto.
  - apply Forall_forall. intros x [_ Hx]%elem_of_list_filter. unfold self_row in Hx.
    assert (forall y, y ∈ c -> y < n) as Hlt. { intros y Hy. eapply elem_of_submseteq in Hy; [|apply Hc]. apply elem_of_seq in Hy. lia. }
    destruct (decide (c = [] \/ v ∈ c)); [auto|]. apply elem_of_list_lookup in Hx as [j Hj]. apply list_lookup_insert_Some in Hj as [(_ & <- & _)|[_ Hj]]; [done|].
    apply Hlt. by eapply elem_of_list_lookup_2.
Qed.
End Build2.
