(** Specification of the graph operations on adjacency lists, independent of
    the models, and its connection to the lemmas about the models. *)

From stdpp Require Import prelude list sorting.
From Coq Require Import NArith ZArith.
From Verif Require Import Base World Mem Digraph DigraphRep DigraphOps DigraphUnion DigraphDiff.

(** Arcs out of [v]. *)
Definition adj (rows : list (list nat)) (v : nat) : list nat :=
  match rows !! v with Some r => r | None => [] end.

(** Keep the first occurrence of every element. *)
Fixpoint nub (l : list nat) : list nat :=
  match l with
  | [] => []
  | x :: l' => x :: filter (fun y => y <> x) (nub l')
  end.

(** Arcs out of [v] after removal of self-loops. *)
Definition spec_no_loops (g : list (list nat)) (v : nat) : list nat :=
  filter (fun x => x <> v) (adj g v).

(** Union: the arcs of all graphs, in graph order, without repetition, for the
    selected tails; self-loops dropped on request. *)
Definition spec_union (keep_loops : bool) (tails : option (list nat))
    (gs : list (list (list nat))) (v : nat) : list nat :=
  if match tails with None => true | Some ts => bool_decide (v ∈ ts) end
  then let l := concat ((fun g => adj g v) <$> gs) in
       nub (if keep_loops then l else filter (fun x => x <> v) l)
  else [].

(** Difference: the first [k] arcs of [g] that are not arcs of [h]. *)
Definition spec_difference (k : nat) (g h : list (list nat)) (v : nat) : list nat :=
  take k (filter (fun x => x ∉ adj h v) (adj g v)).

(** Transpose: from the last vertex to the first, each as often as it points to
    [v]. *)
Definition spec_transpose (g : list (list nat)) (v : nat) : list nat :=
  concat ((fun u => replicate (length (filter (fun x => x = v) (adj g u))) u)
          <$> reverse (seq 0 (length g))).

(** Adjacency product: heads of paths of one arc of [a] and one of [b] (and of
    arcs of [b], if loops are forced in [a]), without self-loops. *)
Definition spec_product (force_loops : bool) (a b : list (list nat)) (v : nat) : list nat :=
  nub (filter (fun x => x <> v)
    ((if force_loops then adj b v else []) ++ concat (adj b <$> adj a v))).

(** Number of arcs of an [n]-vertex graph given by its rows. *)
Definition num_arcs (n : nat) (f : nat -> list nat) : nat :=
  length (concat (f <$> seq 0 n)).

(** [dg] is a valid graph with [n] vertices and the arcs [f]. *)
Definition is_graph (cfg : config) (dg : digraph) (n : nat) (f : nat -> list nat) : Prop :=
  exists rows, dg_rep cfg dg rows /\ length rows = n /\ forall v, v < n -> adj rows v = f v.

(** The live blocks of [w'] are those of [w] plus [blks]. *)
Definition mem_plus (w' : world) (blks : list nat) (w : world) : Prop :=
  w_live w' ≡ₚ blks ++ w_live w.

Lemma nub_filter P `{!forall x, Decision (P x)} l : nub (filter P l) = filter P (nub l).
Proof.
  induction l as [|x l IH]; simpl; auto.
  rewrite (filter_cons P x l). destruct (decide (P x)).
  - simpl. rewrite filter_cons_True by auto. f_equal. rewrite IH.
    rewrite !list_filter_filter. apply list_filter_iff. tauto.
  - rewrite filter_cons_False by auto. rewrite IH. rewrite list_filter_filter.
    apply list_filter_iff. intros y. split; [|tauto]. intros; split; auto. by intros ->.
Qed.

Lemma dd_nub s l : dd s l = nub (filter (fun x => x ∉ s) l).
Proof.
  revert s. induction l as [|x l IH]; intros s; simpl; auto.
  destruct (decide (x ∈ s)).
  - rewrite filter_cons_False by tauto. auto.
  - rewrite filter_cons_True by auto. simpl. f_equal. rewrite IH, <- nub_filter.
    rewrite list_filter_filter. f_equal. apply list_filter_iff. intros y. rewrite elem_of_cons. tauto.
Qed.

Lemma adj_row rows v : adj rows v = row rows v.
Proof. unfold adj, row. by destruct (rows !! v). Qed.

Lemma elem_of_nub l x : x ∈ nub l <-> x ∈ l.
Proof.
  pose proof (dd_nub [] l) as H.
  assert (filter (fun y => y ∉ @nil nat) l = l) as E.
  { clear. induction l as [|y l IH]; [done|]. rewrite filter_cons_True; [by f_equal|apply not_elem_of_nil]. }
  rewrite E in H. rewrite <- H, elem_of_dd. split; [tauto|]. intros; split; auto. apply not_elem_of_nil.
Qed.

Lemma NoDup_nub l : NoDup (nub l).
Proof.
  assert (filter (fun y => y ∉ @nil nat) l = l) as E.
  { clear. induction l as [|y l IH]; [done|]. rewrite filter_cons_True; [by f_equal|apply not_elem_of_nil]. }
  pose proof (dd_nub [] l) as H. rewrite E in H. rewrite <- H. apply NoDup_dd.
Qed.

Lemma row_no_loops_spec rows v : v < length rows -> adj (rows_no_loops rows) v = spec_no_loops rows v.
Proof.
  intros H. unfold spec_no_loops, adj, rows_no_loops. rewrite list_lookup_imap.
  destruct (rows !! v) eqn:E; [done|]. apply lookup_ge_None in E. lia.
Qed.

Lemma union_rows_spec keep tails rss n v : v < n ->
  adj (union_rows keep tails rss n) v = spec_union keep tails rss v.
Proof.
  intros H. rewrite adj_row. unfold union_rows. rewrite row_seq by auto.
  unfold union_rowk, spec_union, tail_kept. destruct (match tails with Some _ => _ | None => _ end); auto.
  unfold union_row. rewrite dd_nub.
  assert ((fun rs => row rs v) <$> rss = (fun g => adj g v) <$> rss) as ->.
  { apply list_fmap_ext. intros _ x _. symmetry. apply adj_row. }
  f_equal. destruct keep.
  - induction (concat _) as [|y l IH]; [done|]. rewrite filter_cons_True; [by f_equal|apply not_elem_of_nil].
  - apply list_filter_iff. intros x. by rewrite elem_of_list_singleton.
Qed.

Lemma diff_rows_spec k rows sub v : v < length rows ->
  adj (diff_rows k rows sub) v = spec_difference k rows sub v.
Proof.
  intros H. unfold spec_difference, diff_rows. unfold adj at 1. rewrite list_lookup_imap.
  destruct (rows !! v) eqn:E; [|apply lookup_ge_None in E; lia].
  assert (adj rows v = l) as -> by (unfold adj; by rewrite E).
  simpl. unfold diff_row. by f_equal.
Qed.

Lemma product_rows_spec force ra rb v : v < length ra ->
  adj (product_rows force ra rb) v = spec_product force ra rb v.
Proof.
  intros H. rewrite adj_row. unfold product_rows. rewrite row_seq by auto.
  unfold product_row, spec_product. rewrite dd_nub. f_equal.
  assert (filter (fun x => x ∉ [v]) (product_arcs force ra rb v) = filter (fun x => x <> v) (product_arcs force ra rb v)) as ->.
  { apply list_filter_iff. intros x. by rewrite elem_of_list_singleton. }
  reflexivity.
Qed.

Lemma tails_to_concat g x us :
  tails_to (concat ((fun v => pair v <$> row g v) <$> us)) x =
  concat ((fun u => replicate (length (filter (fun y => y = x) (adj g u))) u) <$> us).
Proof.
  induction us as [|u us IH]; csimpl; [done|].
  rewrite <- IH. unfold tails_to. rewrite filter_app, fmap_app. f_equal.
  change (adj g u) with (row g u). induction (row g u) as [|y r IHr]; csimpl; [done|].
  rewrite !filter_cons. simpl. destruct (decide (y = x)); csimpl; [by f_equal|done].
Qed.

Lemma reverse_concat_rep (f : nat -> nat) us :
  reverse (concat ((fun u => replicate (f u) u) <$> us)) = concat ((fun u => replicate (f u) u) <$> reverse us).
Proof.
  induction us as [|u us IH]; csimpl; [done|].
  rewrite reverse_app, IH, reverse_cons, fmap_app, concat_app. csimpl. by rewrite reverse_replicate, app_nil_r.
Qed.

Lemma transpose_rows_spec rows v : v < length rows ->
  adj (transpose_rows rows) v = spec_transpose rows v.
Proof.
  intros H. rewrite adj_row. unfold transpose_rows. rewrite row_seq by auto.
  unfold transpose_row, spec_transpose, all_arcs. rewrite tails_to_concat.
  apply (reverse_concat_rep (fun u => length (filter (fun y => y = v) (adj rows u)))).
Qed.

Lemma is_graph_rep cfg dg rows n f : dg_rep cfg dg rows -> length rows = n ->
  (forall v, v < n -> adj rows v = f v) -> is_graph cfg dg n f.
Proof. intros. exists rows. auto. Qed.

Lemma num_arcs_rows rows n f : length rows = n -> (forall v, v < n -> adj rows v = f v) ->
  num_arcs n f = length (concat rows).
Proof.
  intros <- H. unfold num_arcs. f_equal. f_equal. rewrite (rows_seq rows) at 2.
  apply list_fmap_ext. intros i v Hv. apply lookup_seq in Hv as [-> Hi]. simpl. rewrite <- H by auto. apply adj_row.
Qed.

(** A represented graph is valid in the sense of the library's own check. *)
Lemma rep_valid cfg dg rows : dg_rep cfg dg rows -> (N.of_nat (dg_n dg) <= pi_max cfg)%N ->
  digraph_is_valid cfg dg = Ok true.
Proof.
  intros H Hpi. unfold digraph_is_valid.
  assert (digraph_is_initialized cfg dg = true) as ->.
  { unfold digraph_is_initialized. destruct (rep_tail _ _ _ H) as (b & c & -> & _).
    pose proof (rep_ai _ _ _ H) as Ha. unfold too_many_arcs in Ha. apply orb_false_iff in Ha as [Ha _].
    rewrite Ha. rewrite (proj2 (N.ltb_ge _ _)) by auto. simpl.
    pose proof (rep_head _ _ _ H) as Hh. destruct (dg_head dg).
    - rewrite decide_False by lia. done.
    - rewrite decide_True by lia. done. }
  simpl. rewrite (rep_tail_get _ _ _ _ H) by lia. simpl.
  rewrite (rep_n _ _ _ H). rewrite (rep_tail_get _ _ _ _ H) by lia. simpl.
  pose proof (rep_max _ _ _ H). rewrite decide_False by (rewrite offs_all by lia; lia).
  pose proof (loopR_sat none (fun _ _ => True) (fun _ : bool => False) (length rows) 0 tt
    (fun i _ => let! a := aget (dg_tail dg) i in let! b := aget (dg_tail dg) (i + 1) in
       if decide (b < a) then Ok (inr false) else Ok (inl tt))) as L.
  feed specialize L; [done| |].
  { intros j [] Hj _. rewrite !(rep_tail_get _ _ _ _ H) by lia. simpl. rewrite decide_False; [done|].
    pose proof (offs_mono rows j (j + 1)). lia. }
  destruct (loopR _ _ _ _) as [[[]|]|]; simpl in *; unfold none in *; try tauto.
  destruct (decide _) as [Hp|Hp]; [|done].
  pose proof (loopR_sat none (fun _ _ => True) (fun _ : bool => False) (length (concat rows)) 0 tt
    (fun i _ => let! x := aget (dg_head dg) i in
       if decide (length rows <= x) then Ok (inr false) else Ok (inl tt))) as L2.
  feed specialize L2; [done| |].
  { intros j [] Hj _. destruct (lookup_lt_is_Some_2 (concat rows) j) as [x Hx]; [lia|].
    rewrite (rep_head_get_all _ _ _ _ _ H Hx). simpl. rewrite decide_False; [done|].
    pose proof (rep_lt _ _ _ H) as Hlt. apply Forall_concat in Hlt. eapply Forall_lookup_1 in Hlt; eauto. simpl in *. lia. }
  unfold loop_ptr. rewrite offs_all by lia. rewrite decide_False by lia. rewrite Nat.sub_0_r.
  destruct (loopR _ _ _ _) as [[[]|]|]; simpl in *; unfold none in *; try tauto.
Qed.

Lemma loopR_unit_inv {T} n i (f : nat -> unit -> R (unit + T)) :
  loopR n i tt f = Ok (inl tt) -> forall j, i <= j < i + n -> f j tt = Ok (inl tt).
Proof.
  revert i. induction n as [|n IH]; intros i H j Hj; [lia|].
  simpl in H. destruct (f i tt) as [[[]|]|] eqn:E; simpl in H; try discriminate.
  destruct (decide (j = i)) as [->|]; [done|]. apply (IH (S i)); [done|lia].
Qed.

(** Conversely, what the check accepts is a graph, if the arrays have the sizes
    the struct says. *)
Lemma valid_rep cfg dg tb tc :
  digraph_is_valid cfg dg = Ok true ->
  match dg_head dg with Some a => length (a_cells a) = dg_max dg | None => True end ->
  dg_tail dg = Some (Arr tb tc) -> length tc = S (dg_n dg) ->
  (N.of_nat (dg_max dg) <= u64max)%N ->
  exists rows, dg_rep cfg dg rows.
Proof.
  intros H Hhc Ht Hl Hu. unfold digraph_is_valid in H.
  destruct (digraph_is_initialized cfg dg) eqn:Hini; simpl in H; [|discriminate].
  unfold digraph_is_initialized in Hini. rewrite Ht in Hini, H.
  destruct ((pi_max cfg <? N.of_nat (dg_n dg)) || (ai_max cfg <? N.of_nat (dg_max dg)))%N eqn:Hmx; [discriminate|].
  apply orb_false_iff in Hmx as [_ Hai].
  set (n := dg_n dg) in *.
  simpl in H. destruct (cget tc 0) as [t0|] eqn:E0; simpl in H; [|discriminate].
  destruct (decide (t0 <> 0)) as [|Ht0]; [discriminate|].
  destruct (cget tc n) as [tn|] eqn:En; simpl in H; [|discriminate].
  destruct (decide (dg_max dg < tn)) as [|Htn]; [discriminate|].
  destruct (loopR n 0 tt _) as [[[]|b]|] eqn:L; simpl in H; try discriminate.
  2:{ exfalso. injection H as ->.
      assert (forall n i, loopR n i tt (fun (i0 : nat) (_ : ()) => let! a := cget tc i0 in let! b := cget tc (i0 + 1) in
         if decide (b < a) then Ok (inr false) else Ok (inl tt)) <> Ok (inr true)) as K.
      { clear. induction n as [|n IH]; intros i; simpl; [done|]. destruct (cget tc i); simpl; [|done].
        destruct (cget tc (i + 1)); simpl; [|done]. destruct (decide _); simpl; [done|apply IH]. }
      by apply K in L. }
  pose proof (loopR_unit_inv _ _ _ L) as Hst. clear L.
  assert (forall k, k <= n -> exists t, tc !! k = Some (Some t)) as Hdef.
  { intros k Hk. destruct (decide (k = n)) as [->|Hne].
    - simpl in En. apply cget_inv in En. eauto.
    - specialize (Hst k ltac:(lia)). simpl in Hst. destruct (cget tc k) eqn:E; simpl in Hst; [|discriminate].
      apply cget_inv in E. eauto. }
  set (t k := match tc !! k with Some (Some x) => x | _ => 0 end).
  assert (forall k, k <= n -> tc !! k = Some (Some (t k))) as Htc.
  { intros k Hk. destruct (Hdef k Hk) as [x E]. unfold t. by rewrite E. }
  assert (t 0 = 0) as T0. { simpl in E0. apply cget_inv in E0. unfold t. rewrite E0. lia. }
  assert (t n = tn) as Tn. { simpl in En. apply cget_inv in En. unfold t. by rewrite En. }
  assert (forall k, k < n -> t k <= t (S k)) as Hmono.
  { intros k Hk. specialize (Hst k ltac:(lia)). simpl in Hst.
    rewrite (cget_ok _ _ _ (Htc k ltac:(lia))), (cget_ok _ _ _ (Htc (k + 1) ltac:(lia))) in Hst. simpl in Hst.
    destruct (decide (t (k + 1) < t k)) as [|Hn]; [discriminate|]. rewrite Nat.add_1_r in Hn. lia. }
  assert (forall j k, j <= k -> k <= n -> t j <= t k) as Hmono'.
  { intros j k Hjk. induction Hjk as [|k Hjk IH]; intros Hk; [done|]. specialize (Hmono k ltac:(lia)). specialize (IH ltac:(lia)). lia. }
  assert (exists hs, length hs = tn /\ Forall (fun x => x < n) hs /\
     match dg_head dg with Some a => filled (a_cells a) hs | None => hs = [] end) as (hs & Lhs & Fhs & Ehs).
  { destruct (decide (0 < tn)) as [Hp|Hp].
    2:{ exists []. simpl. splits; [lia|done|]. destruct (dg_head dg); [apply filled_nil|done]. }
    unfold loop_ptr in H. rewrite decide_False in H by lia. rewrite Nat.sub_0_r in H.
    destruct (loopR tn 0 tt _) as [[[]|b]|] eqn:L; simpl in H; try discriminate.
    2:{ exfalso. injection H as ->.
      assert (forall m i, loopR m i tt (fun (j : nat) (_ : ()) => let! x := aget (dg_head dg) j in
         if decide (n <= x) then Ok (inr false) else Ok (inl tt)) <> Ok (inr true)) as K.
      { clear. induction m as [|m IH]; intros i; simpl; [done|]. destruct (aget (dg_head dg) i); simpl; [|done].
        destruct (decide _); simpl; [done|apply IH]. }
      by apply K in L. }
    pose proof (loopR_unit_inv _ _ _ L) as Hst2.
    destruct (dg_head dg) as [[hb hc]|]; [|specialize (Hst2 0 ltac:(lia)); discriminate]. simpl in *.
    assert (forall j, j < tn -> exists x, hc !! j = Some (Some x) /\ x < n) as Hx.
    { intros j Hj. specialize (Hst2 j ltac:(lia)). destruct (cget hc j) as [x|] eqn:E; simpl in Hst2; [|discriminate].
      apply cget_inv in E. exists x. split; [done|]. destruct (decide (n <= x)); [discriminate|lia]. }
    set (hv j := match hc !! j with Some (Some x) => x | _ => 0 end).
    exists (hv <$> seq 0 tn). splits.
    - by rewrite fmap_length, seq_length.
    - apply Forall_lookup. intros i x Hi. apply list_lookup_fmap_Some in Hi as (j & Hj & ->). apply lookup_seq in Hj as [-> Hj].
      destruct (Hx i Hj) as (x & E & Hxn). unfold hv. simpl. by rewrite E.
    - exists (drop tn hc). rewrite <- (take_drop tn hc) at 1. f_equal. apply list_eq. intros i.
      destruct (decide (i < tn)) as [Hi|Hi].
      + rewrite lookup_take by done. rewrite !list_lookup_fmap. rewrite lookup_seq_lt by done. simpl.
        destruct (Hx i Hi) as (x & E & Hxn). unfold hv. by rewrite E.
      + rewrite !lookup_ge_None_2; [done|rewrite !fmap_length, seq_length; lia|rewrite take_length; lia]. }
  set (rows := (fun v => take (t (S v) - t v) (drop (t v) hs)) <$> seq 0 n).
  assert (length rows = n) as Lr by (unfold rows; by rewrite fmap_length, seq_length).
  assert (forall k, k <= n -> concat (take k rows) = take (t k) hs) as Hcat.
  { induction k as [|k IH]; intros Hk; [by rewrite T0|].
    assert (rows !! k = Some (take (t (S k) - t k) (drop (t k) hs))) as Hrk.
    { unfold rows. rewrite list_lookup_fmap, lookup_seq_lt by lia. done. }
    rewrite (take_S_r _ _ _ Hrk), concat_app, IH by lia. simpl. rewrite app_nil_r.
    rewrite take_take_drop. f_equal. specialize (Hmono k ltac:(lia)). lia. }
  assert (concat rows = hs) as Hall.
  { rewrite <- (firstn_all rows). rewrite Lr, Hcat by lia. rewrite Tn. apply take_ge. lia. }
  exists rows. constructor.
  - by rewrite Lr.
  - exists tb, tc. split; [done|]. split; [by rewrite Lr|]. intros k Hk. rewrite Lr in Hk. rewrite Htc by done.
    unfold offs. rewrite Hcat by done. rewrite take_length, Lhs, Nat.min_l; [done|]. rewrite <- Tn. apply Hmono'; lia.
  - destruct (dg_head dg) as [a|].
    + splits; [done| |by rewrite Hall]. destruct (decide (dg_max dg = 0)); [discriminate|lia].
    + split; [|by rewrite Hall]. destruct (decide (dg_max dg = 0)); [done|discriminate].
  - rewrite Lr. apply Forall_concat. rewrite Hall. apply Fhs.
  - unfold too_many_arcs. apply orb_false_iff. split; [done|]. by apply N.ltb_ge.
Qed.

(** Outcome of the operations that make a new graph: either OK and exactly the
    graph [f] with exactly fitting storage, nothing else allocated; or an error
    that is reported, with nothing allocated, and due to a failed allocation or
    to a graph too large for the arc index type. *)
Definition makes_graph (cfg : config) (n : nat) (f : nat -> list nat)
    (m : M (ecode * digraph)) (w : world) : Prop :=
  exists ec dg w', m w = Ok ((ec, dg), w') /\
    (ec = ER_OK -> is_graph cfg dg n f /\ dg_max dg = num_arcs n f /\
                   mem_plus w' (dg_blocks dg) w) /\
    (ec <> ER_OK -> mem_plus w' [] w /\ e_code (w_err w') = ec /\
       (ec = ER_NO_MEMORY /\ ~ no_fail w \/
        ec = ER_TOO_LARGE_PROBLEM /\ too_many_arcs cfg (num_arcs n f) = true)).

(** Outcome of the operations that change a graph in place. *)
Definition changes_graph (cfg : config) (n : nat) (f : nat -> list nat) (dg0 : digraph)
    (m : M (ecode * digraph)) (w : world) : Prop :=
  exists ec dg w', m w = Ok ((ec, dg), w') /\
    w_live w' ++ dg_blocks dg0 ≡ₚ w_live w ++ dg_blocks dg /\
    (ec = ER_OK -> is_graph cfg dg n f /\ w_err w' = w_err w /\
                   (dg_max dg = num_arcs n f \/ dg = dg0)) /\
    (ec <> ER_OK -> ec = ER_NO_MEMORY /\ e_code (w_err w') = ec /\
                    ~ no_fail w).

(** The blocks of [dg] are allocated. *)
Definition dg_live (w : world) (dg : digraph) : Prop :=
  forall x, cnt x (dg_blocks dg) <= cnt x (w_live w).

Lemma new_post_makes cfg rows greedy n f m w :
  Msat none m w (new_post cfg rows greedy w) -> length rows = n ->
  (forall v, v < n -> adj rows v = f v) -> makes_graph cfg n f m w.
Proof.
  intros H Hl Hf. apply Msat_none in H as ([ec dg] & w' & E & (_ & _ & Hok & Hbad)).
  exists ec, dg, w'. split; [done|]. rewrite (num_arcs_rows rows n f) by done. split.
  - intros ->. destruct (Hok eq_refl) as (Ho & Hr & Hm & _). splits; [|done|].
    + by exists rows.
    + unfold mem_plus. apply cnt_perm. intros x. rewrite cnt_app. apply Ho.
  - intros Hec. destruct (Hbad Hec) as (Ho & Hc & Hw). splits; [|done|tauto].
    unfold mem_plus. by apply own_perm.
Qed.

Lemma changes_of cfg rows n f dg0 m w :
  Msat none m w (fun r w' =>
    wle w w' /\ w_tick w' = w_tick w /\
    (forall x, cnt x (w_live w') + cnt x (dg_blocks dg0) = cnt x (w_live w) + cnt x (dg_blocks r.2)) /\
    (r.1 = ER_OK -> dg_rep cfg r.2 rows /\
       (dg_max r.2 = length (concat rows) \/ r.2 = dg0) /\ w_err w' = w_err w) /\
    (r.1 <> ER_OK -> r.1 = ER_NO_MEMORY /\ ~ no_fail w /\ e_code (w_err w') = r.1)) ->
  length rows = n -> (forall v, v < n -> adj rows v = f v) -> changes_graph cfg n f dg0 m w.
Proof.
  intros H Hl Hf. apply Msat_none in H as ([ec dg] & w' & E & (_ & _ & Hb & Hok & Hbad)).
  exists ec, dg, w'. split; [done|]. rewrite (num_arcs_rows rows n f) by done. splits.
  - apply cnt_perm. intros x. rewrite !cnt_app. apply Hb.
  - intros ->. destruct (Hok eq_refl) as (Hr & Hm & He). splits; [by exists rows|done|done].
  - intros Hec. destruct (Hbad Hec) as (E2 & Ho & Hc). simpl in *. subst ec. auto.
Qed.

Lemma dgs_rep_of cfg dgs gs n : Forall2 (dg_rep cfg) dgs gs -> Forall (fun g => length g = n) gs ->
  dgs_rep cfg dgs gs n.
Proof. intros H Hl. unfold dgs_rep. induction H; constructor; inversion Hl; auto. Qed.

Lemma makes_union cfg dgs gs n tails keep w :
  Forall2 (dg_rep cfg) dgs gs -> dgs <> [] -> Forall (fun g => length g = n) gs ->
  match tails with None => True | Some ts => StronglySorted lt ts /\ Forall (fun t => t < n) ts end ->
  makes_graph cfg n (spec_union keep tails gs) (digraph_union_and_delete cfg dgs tails keep) w.
Proof.
  intros H2 Hne Hl Ht. eapply new_post_makes.
  - apply Msat_union; [by apply dgs_rep_of|done|exact Ht].
  - unfold union_rows. by rewrite fmap_length, seq_length.
  - intros v Hv. by apply union_rows_spec.
Qed.

Lemma makes_transpose cfg dg g w : dg_rep cfg dg g ->
  makes_graph cfg (length g) (spec_transpose g) (digraph_transpose cfg dg) w.
Proof.
  intros H. eapply new_post_makes.
  - by apply Msat_transpose.
  - apply transpose_rows_length.
  - apply transpose_rows_spec.
Qed.

Lemma makes_product cfg dga dgb a b force w :
  dg_rep cfg dga a -> dg_rep cfg dgb b -> length a = length b ->
  makes_graph cfg (length a) (spec_product force a b) (adjacency_product cfg dga dgb force) w.
Proof.
  intros Ha Hb Hl. eapply new_post_makes.
  - by apply Msat_product.
  - unfold product_rows. by rewrite fmap_length, seq_length.
  - apply product_rows_spec.
Qed.

Lemma changes_delete_loops cfg dg g w : dg_rep cfg dg g -> dg_live w dg ->
  changes_graph cfg (length g) (spec_no_loops g) dg (delete_loops cfg dg) w.
Proof.
  intros H Hw. eapply (changes_of cfg (rows_no_loops g)).
  - destruct (decide (concat g = [])) as [He|He].
    + unfold delete_loops. apply Msat_bind, Msat_lift. rewrite (is_empty_rep _ _ _ H). simpl.
      rewrite bool_decide_eq_true_2 by done. apply Msat_ret. simpl. splits; auto; try congruence.
      intros _. rewrite rows_no_loops_nil by done. auto.
    + eapply Msat_mono; [by apply Msat_delete_loops|]. intros r w' (?&?&?&Hok&?). splits; auto.
      intros E. destruct (Hok E) as (?&[?|?]&?); [auto|congruence].
  - unfold rows_no_loops. apply imap_length.
  - apply row_no_loops_spec.
Qed.

Lemma changes_difference cfg dg sub g h k w :
  dg_rep cfg dg g -> dg_rep cfg sub h -> length h = length g -> dg_live w dg ->
  changes_graph cfg (length g) (spec_difference k g h) dg (digraph_difference cfg dg sub k) w.
Proof.
  intros H Hs Hl Hw. eapply (changes_of cfg (diff_rows k g h)).
  - destruct (decide (concat g = [])) as [He|He].
    + unfold digraph_difference. apply Msat_bind, Msat_lift. rewrite (is_empty_rep _ _ _ H). simpl.
      rewrite bool_decide_eq_true_2 by done. apply Msat_ret. simpl. splits; auto; try congruence.
      intros _. rewrite diff_rows_nil by done. auto.
    + eapply Msat_mono; [by apply Msat_difference|]. intros r w' (?&?&?&Hok&?). splits; auto.
      intros E. destruct (Hok E) as (?&[?|?]&?); [auto|congruence].
  - apply diff_rows_length.
  - apply diff_rows_spec.
Qed.

(** Two runs that both succeed, whatever allocations fail in each. *)
Definition same_graph (d1 d2 : digraph) : Prop :=
  dg_n d1 = dg_n d2 /\ dg_max d1 = dg_max d2 /\
  (forall v, v <= dg_n d1 -> aget (dg_tail d1) v = aget (dg_tail d2) v) /\
  (forall j, j < dg_max d1 -> aget (dg_head d1) j = aget (dg_head d2) j).

Lemma rep_same cfg d1 d2 rows : dg_rep cfg d1 rows -> dg_rep cfg d2 rows ->
  dg_max d1 = length (concat rows) -> dg_max d2 = length (concat rows) -> same_graph d1 d2.
Proof.
  intros H1 H2 M1 M2. unfold same_graph. rewrite (rep_n _ _ _ H1), (rep_n _ _ _ H2). splits; [done|congruence| |].
  - intros v Hv. by rewrite (rep_tail_get _ _ _ _ H1), (rep_tail_get _ _ _ _ H2).
  - intros j Hj. destruct (lookup_lt_is_Some_2 (concat rows) j) as [x Hx]; [lia|].
    by rewrite (rep_head_get_all _ _ _ _ _ H1 Hx), (rep_head_get_all _ _ _ _ _ H2 Hx).
Qed.

Lemma retry_same cfg rows greedy m w1 d1 w1' w2 d2 w2' :
  (forall w, Msat none m w (new_post cfg rows greedy w)) ->
  m w1 = Ok ((ER_OK, d1), w1') -> m w2 = Ok ((ER_OK, d2), w2') ->
  same_graph d1 d2 /\ (w_err w2' = w_err w2 \/ w_err w2' = no_errst).
Proof.
  intros H E1 E2. pose proof (Msat_inv _ _ _ _ _ _ E1 (H w1)) as (_ & _ & H1 & _).
  pose proof (Msat_inv _ _ _ _ _ _ E2 (H w2)) as (_ & _ & H2 & _).
  destruct (H1 eq_refl) as (_ & R1 & M1 & _). destruct (H2 eq_refl) as (_ & R2 & M2 & He & _).
  split; [|done]. by eapply rep_same.
Qed.

Lemma retry_union cfg dgs gs n tails keep w1 d1 w1' w2 d2 w2' :
  Forall2 (dg_rep cfg) dgs gs -> dgs <> [] -> Forall (fun g => length g = n) gs ->
  match tails with None => True | Some ts => StronglySorted lt ts /\ Forall (fun t => t < n) ts end ->
  digraph_union_and_delete cfg dgs tails keep w1 = Ok ((ER_OK, d1), w1') ->
  digraph_union_and_delete cfg dgs tails keep w2 = Ok ((ER_OK, d2), w2') ->
  same_graph d1 d2 /\ (w_err w2' = w_err w2 \/ w_err w2' = no_errst).
Proof.
  intros H2 Hne Hl Ht. eapply retry_same. intros w. apply (Msat_union cfg none dgs gs n); [by apply dgs_rep_of|done|exact Ht].
Qed.

Lemma retry_product cfg dga dgb a b force w1 d1 w1' w2 d2 w2' :
  dg_rep cfg dga a -> dg_rep cfg dgb b -> length a = length b ->
  adjacency_product cfg dga dgb force w1 = Ok ((ER_OK, d1), w1') ->
  adjacency_product cfg dga dgb force w2 = Ok ((ER_OK, d2), w2') ->
  same_graph d1 d2 /\ (w_err w2' = w_err w2 \/ w_err w2' = no_errst).
Proof. intros Ha Hb Hl. eapply retry_same. intros w. by apply Msat_product. Qed.
