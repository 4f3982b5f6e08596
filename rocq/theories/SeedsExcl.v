(** What the exclusion methods of src/nng_findseeds.c compute. *)

From Coq Require Import Strings.String.
From stdpp Require Import prelude list sorting.
From Coq Require Import NArith ZArith.
From Verif Require Import Base World Mem Digraph DigraphRep DigraphUnion DigraphDiff GraphSpec Arrays SeedSpec
  Options Seeds SeedsSort SeedsProof.
Open Scope string_scope. Open Scope list_scope. Open Scope nat_scope.

(** ** Changing one arc in place *)

Lemma concat_insert (rows : list (list nat)) v r j x : rows !! v = Some r -> j < length r ->
  concat (<[v := <[j := x]> r]> rows) = <[offs rows v + j := x]> (concat rows).
Proof.
  revert v. induction rows as [|r0 rows IH]; intros v Hv Hj; [done|]. destruct v as [|v]; simpl in *.
  - injection Hv as ->. unfold offs. simpl. by rewrite insert_app_l.
  - unfold offs in *. simpl. rewrite app_length, <- Nat.add_assoc, insert_app_r, IH by done. done.
Qed.

Lemma offs_insert (rows : list (list nat)) v r r' k : rows !! v = Some r -> length r' = length r ->
  offs (<[v := r']> rows) k = offs rows k.
Proof.
  intros Hv Hl. unfold offs. revert v k Hv. induction rows as [|r0 rows IH]; intros v k Hv; [done|].
  destruct v as [|v]; destruct k as [|k]; simpl in *; try done.
  - injection Hv as ->. rewrite !app_length. lia.
  - rewrite !app_length. by erewrite IH.
Qed.

Lemma filled_set {A} (c : list (option A)) xs i x : filled c xs -> i < length xs ->
  filled (<[i := Some x]> c) (<[i := x]> xs).
Proof.
  intros [rest ->] Hi. exists rest. rewrite insert_app_l by (by rewrite fmap_length). f_equal. by rewrite list_fmap_insert.
Qed.

Section Excl.
Context (cfg : config).

Lemma adj_head_lt dg g v x : dg_rep cfg dg g -> x ∈ adj g v -> x < length g.
Proof. intros H Hx. eapply adj_lt; eauto. Qed.

Lemma adj_tail_lt dg g v x : dg_rep cfg dg g -> x ∈ adj g v -> v < length g.
Proof. intros H Hx. exact (proj1 (adj_lt cfg _ _ _ _ H Hx)). Qed.

Lemma rep_set dg rows v r j x : dg_rep cfg dg rows -> rows !! v = Some r -> j < length r -> x < length rows ->
  exists h, aset (dg_head dg) (offs rows v + j) x = Ok h /\ arr_blk h = arr_blk (dg_head dg) /\
    dg_rep cfg (DG (dg_n dg) (dg_max dg) h (dg_tail dg)) (<[v := <[j := x]> r]> rows).
Proof.
  intros H Hv Hj Hx. pose proof (offs_lt rows v r j Hv Hj) as Hlt.
  destruct H as [Hn (tb & tc & Ht & Htl & Htr) Hh Hl Ha].
  destruct (dg_head dg) as [[hb hc]|] eqn:Eh.
  2:{ destruct Hh as [_ Hh]. rewrite Hh in Hlt. simpl in Hlt. lia. }
  simpl in Hh. destruct Hh as (H1 & H2 & H3). pose proof (filled_length _ _ H3) as Hfl.
  eexists. split; [apply aset_cells; lia|]. split; [done|]. constructor; simpl.
  - by rewrite insert_length.
  - exists tb, tc. split; [done|]. split; [by rewrite insert_length|]. intros k Hk. rewrite insert_length in Hk.
    rewrite (offs_insert rows v r) by (done || by rewrite insert_length). auto.
  - rewrite insert_length. split; [done|]. split; [done|]. rewrite (concat_insert rows v r) by done. by apply filled_set.
  - rewrite insert_length. apply Forall_insert; [done|]. apply Forall_insert; [|done]. rewrite Forall_lookup in Hl. eauto.
  - done.
Qed.

(** ** The exclusion graph *)

Definition keep_of (g : list (list nat)) : option (list nat) :=
  let l := filter (fun v => adj g v <> []) (seq 0 (length g)) in
  if decide (length l = length g) then None else Some l.

Definition ex_rows (g : list (list nat)) : list (list nat) :=
  union_rows false (keep_of g) [g; product_rows true g (transpose_rows g)] (length g).

Lemma seq_sorted i n : StronglySorted lt (seq i n).
Proof.
  revert i. induction n as [|n IH]; intros i; simpl; constructor; auto. apply Forall_forall. intros x. rewrite elem_of_seq. lia.
Qed.

Lemma filter_sorted (P : nat -> Prop) `{!forall x, Decision (P x)} l : StronglySorted lt l -> StronglySorted lt (filter P l).
Proof.
  induction 1 as [|x l Hl IH Hf]; [constructor|]. rewrite filter_cons. destruct (decide (P x)); [|done].
  constructor; [done|]. rewrite Forall_forall in *. intros y. rewrite elem_of_list_filter. intros [_ Hy]. auto.
Qed.

Lemma keep_ok g : tails_ok (length g) (keep_of g).
Proof.
  unfold keep_of. destruct (decide _); [done|]. split; [apply filter_sorted, seq_sorted|].
  apply Forall_forall. intros x. rewrite elem_of_list_filter, elem_of_seq. lia.
Qed.

Lemma filter_full {A} (P : A -> Prop) `{!forall x, Decision (P x)} l :
  length (filter P l) = length l -> Forall P l.
Proof.
  induction l as [|x l IH]; intros Hl; [constructor|]. rewrite filter_cons in Hl. destruct (decide (P x)).
  - simpl in Hl. constructor; [done|]. apply IH. lia.
  - simpl in Hl. pose proof (filter_length P l). lia.
Qed.

Lemma keep_spec g v : v < length g ->
  (match keep_of g with None => true | Some ts => bool_decide (v ∈ ts) end = true <-> adj g v <> []).
Proof.
  intros Hv. unfold keep_of. destruct (decide _) as [E|E].
  - split; [|done]. intros _. rewrite <- (seq_length (length g) 0) in E at 2. apply filter_full in E.
    rewrite Forall_forall in E. apply (E v). rewrite elem_of_seq. lia.
  - rewrite bool_decide_eq_true, elem_of_list_filter, elem_of_seq. split; [tauto|]. split; [done|]. lia.
Qed.

Lemma conflict_sym g x y : conflict g x y -> conflict g y x.
Proof.
  intros [H1 H2]. split; [done|]. apply Exists_exists in H2 as (u & Hu & Hu'). apply Exists_exists. eauto.
Qed.

Lemma ex_rows_length g : length (ex_rows g) = length g.
Proof. unfold ex_rows, union_rows. by rewrite fmap_length, seq_length. Qed.

Lemma ex_adj dg g v x : dg_rep cfg dg g -> v < length g ->
  x ∈ adj (ex_rows g) v <-> adj g v <> [] /\ conflict g v x.
Proof.
  intros H Hv. unfold ex_rows. rewrite union_rows_spec by done. unfold spec_union.
  pose proof (keep_spec g v Hv) as Hk. destruct (match keep_of g with None => true | Some ts => bool_decide (v ∈ ts) end).
  2:{ split; [intros Hx; by apply elem_of_nil in Hx|]. intros [? _]. assert (false = true) by tauto. done. }
  rewrite elem_of_nub, elem_of_list_filter. csimpl. rewrite app_nil_r, elem_of_app.
  rewrite product_rows_spec by done. unfold spec_product. rewrite elem_of_nub, elem_of_list_filter, elem_of_app, elem_of_concat.
  assert (forall u y, u < length g -> y ∈ adj (transpose_rows g) u <-> y < length g /\ u ∈ adj g y) as Ht.
  { intros u y Hu. rewrite !adj_row. by apply elem_of_transpose. }
  unfold conflict. rewrite Exists_exists. unfold closed. setoid_rewrite elem_of_cons.
  split.
  - intros [Hne Hor]. split; [tauto|]. split; [done|]. destruct Hor as [Hx|[_ [Hx|(l & Hx & Hl)]]].
    + exists x. auto.
    + apply Ht in Hx as [_ Hx]; [|done]. exists v. auto.
    + apply elem_of_list_fmap in Hl as (u & -> & Hu). apply Ht in Hx as [_ Hx]; [|by eapply adj_head_lt]. exists u. auto.
  - intros [Ha [Hne (u & Hu & Hux)]]. split; [done|]. destruct Hu as [->|Hu].
    + destruct Hux as [->|Hux]; [done|]. right. split; [done|]. left. apply Ht; [done|]. split; [|done]. by eapply adj_tail_lt.
    + destruct Hux as [->|Hux]; [by left|]. right. split; [done|]. right. exists (adj (transpose_rows g) u).
      split; [|apply elem_of_list_fmap; eauto]. apply Ht; [by eapply adj_head_lt|]. split; [|done]. by eapply adj_tail_lt.
Qed.

Lemma union_rows_nodup keep tails rss n : Forall (@NoDup nat) (union_rows keep tails rss n).
Proof.
  apply Forall_forall. intros r Hr. apply elem_of_list_lookup in Hr as [v Hv].
  assert (v < n) as Hvn. { apply lookup_lt_Some in Hv. unfold union_rows in Hv. by rewrite fmap_length, seq_length in Hv. }
  assert (r = adj (union_rows keep tails rss n) v) as -> by (unfold adj; by rewrite Hv).
  rewrite union_rows_spec by done. unfold spec_union. destruct (match tails with None => true | Some ts => bool_decide (v ∈ ts) end); [|constructor]. apply NoDup_nub.
Qed.

Lemma ex_key_all dg g v : dg_rep cfg dg g -> icf (ex_rows g) v = conflicts_from (fun _ => true) g v.
Proof.
  intros H. unfold icf. rewrite nb_cnt_concat by apply union_rows_nodup. rewrite ex_rows_length.
  unfold conflicts_from. rewrite nb_filter. apply nb_ext. intros x Hx. apply bool_decide_ext.
  rewrite (ex_adj dg) by done. tauto.
Qed.

Lemma concat_le_sq (rows : list (list nat)) n : length rows = n -> Forall (@NoDup nat) rows -> Forall (Forall (fun x => x < n)) rows ->
  length (concat rows) <= n * n.
Proof.
  intros Hn H1 H2. assert (forall m, length rows = m -> length (concat rows) <= m * n) as Hh; [|by apply Hh].
  clear Hn. induction rows as [|r rows IH]; intros m <-; [simpl; lia|].
  inversion H1 as [|? ? D1 D2]; inversion H2 as [|? ? F1 F2]; subst. simpl. rewrite app_length.
  specialize (IH D2 F2 _ eq_refl).
  assert (length r <= n); [|lia]. rewrite <- (seq_length n 0). apply submseteq_length, NoDup_submseteq; [done|].
  intros x Hx. rewrite Forall_forall in F1. rewrite elem_of_seq. specialize (F1 x Hx). lia.
Qed.

Lemma product_rows_nodup f a b : Forall (@NoDup nat) (product_rows f a b).
Proof.
  apply Forall_forall. intros r Hr. apply elem_of_list_lookup in Hr as [v Hv].
  assert (v < length a) as Hvn. { apply lookup_lt_Some in Hv. unfold product_rows in Hv. by rewrite fmap_length, seq_length in Hv. }
  assert (r = adj (product_rows f a b) v) as -> by (unfold adj; by rewrite Hv).
  rewrite product_rows_spec by done. unfold spec_product. apply NoDup_nub.
Qed.

Lemma Forall_adj (P : nat -> Prop) rows : (forall v x, v < length rows -> x ∈ adj rows v -> P x) -> Forall (Forall P) rows.
Proof.
  intros H. apply Forall_forall. intros r Hr. apply Forall_forall. intros x Hx. apply elem_of_list_lookup in Hr as [v Hv].
  apply (H v); [by eapply lookup_lt_Some|]. unfold adj. by rewrite Hv.
Qed.

Lemma product_rows_lt dg g : dg_rep cfg dg g ->
  Forall (Forall (fun x => x < length g)) (product_rows true g (transpose_rows g)).
Proof.
  intros H. apply Forall_adj. intros v x Hv Hx. unfold product_rows in Hv. rewrite fmap_length, seq_length in Hv.
  rewrite product_rows_spec in Hx by done. unfold spec_product in Hx.
  rewrite elem_of_nub, elem_of_list_filter, elem_of_app, elem_of_concat in Hx.
  destruct Hx as [_ [Hx|(l & Hx & Hl)]].
  - rewrite adj_row in Hx. by apply elem_of_transpose in Hx as [? _].
  - apply elem_of_list_fmap in Hl as (u & -> & Hu). rewrite adj_row in Hx. apply elem_of_transpose in Hx as [? _]; [done|].
    by eapply adj_head_lt.
Qed.

Lemma conflict_lt dg g v x : dg_rep cfg dg g -> v < length g -> conflict g v x -> x < length g.
Proof.
  intros H Hv [Hne Hc]. apply Exists_exists in Hc as (u & Hu & Hux). unfold closed in *.
  rewrite elem_of_cons in Hu, Hux. destruct Hux as [->|Hux]; [|by eapply adj_tail_lt].
  destruct Hu as [->|Hu]; [done|]. by eapply adj_head_lt.
Qed.

Lemma ex_rows_lt dg g : dg_rep cfg dg g -> Forall (Forall (fun x => x < length g)) (ex_rows g).
Proof.
  intros H. apply Forall_adj. intros v x Hv Hx. rewrite ex_rows_length in Hv. rewrite (ex_adj dg) in Hx by done.
  destruct Hx as [_ Hx]. by eapply conflict_lt.
Qed.

Lemma too_many_mono a b : a <= b -> too_many_arcs cfg a = true -> too_many_arcs cfg b = true.
Proof.
  intros Hab Ha. destruct (too_many_arcs cfg b) eqn:E; [done|]. by rewrite (too_many_arcs_mono cfg a b) in Ha.
Qed.

Lemma Msat_exclusion_graph B dg g w : dg_rep cfg dg g ->
  Msat B (exclusion_graph cfg dg (keep_of g)) w (fun r w' =>
    wle w w' /\ w_tick w' = w_tick w /\
    (r.1 = ER_OK -> own w' (dg_blocks r.2) w /\ dg_rep cfg r.2 (ex_rows g) /\
       (w_err w' = w_err w \/ w_err w' = no_errst)) /\
    (r.1 <> ER_OK -> own w' [] w /\
       seed_fail (too_many_arcs cfg (length g * length g) = true) w r.1 w')).
Proof.
  intros H. unfold exclusion_graph.
  apply Msat_bind. eapply Msat_mono; [by apply Msat_transpose|]. intros [ec tr] w1 (L1 & T1 & Hok1 & Her1).
  simpl in Hok1, Her1. destruct (decide (ec <> ER_OK)) as [Hec|Hec].
  { apply Msat_ret. destruct (Her1 Hec) as (O1 & E1 & C1). splits; auto; [done|]. intros _. split; [done|].
    split; [done|]. split; [done|]. destruct C1 as [C1|[_ C1]]; [by left|]. exfalso.
    rewrite (too_many_arcs_mono cfg _ (dg_max dg)) in C1; [done| |apply H].
    etransitivity; [|by apply (rep_max cfg dg g)].
    assert (length (concat (transpose_rows g)) = length (concat g)) as ->; [|lia].
    by eapply transpose_total. }
  assert (ec = ER_OK) as -> by (destruct ec; try done; exfalso; by apply Hec). clear Hec Her1.
  destruct (Hok1 eq_refl) as (O1 & R1 & M1 & E1 & _). clear Hok1.
  apply Msat_bind. eapply Msat_mono.
  { apply (Msat_product cfg B dg tr g (transpose_rows g) true); [done|done|by rewrite transpose_rows_length]. }
  intros [ec prod] w2 (L2 & T2 & Hok2 & Her2). simpl in Hok2, Her2.
  apply Msat_bind. destruct (decide (ec <> ER_OK)) as [Hec|Hec].
  { destruct (Her2 Hec) as (O2 & E2 & C2). apply Msat_free_digraph; [blk|]. intros w3 L3 O3 E3 T3. apply Msat_ret.
    splits; [eauto|congruence|done|]. intros _. split; [blk|]. split; [done|]. simpl. split; [congruence|].
    destruct C2 as [[C2 F2]|[C2 F2]]; [left|right]; (split; [done|]).
    - intros F. apply F2. eapply no_fail_wle; eauto.
    - eapply too_many_mono; [|done]. apply concat_le_sq; [unfold product_rows; by rewrite fmap_length, seq_length|
        apply product_rows_nodup|by eapply product_rows_lt]. }
  assert (ec = ER_OK) as -> by (destruct ec; try done; exfalso; by apply Hec). clear Hec Her2.
  destruct (Hok2 eq_refl) as (O2 & R2 & M2 & E2 & _). clear Hok2.
  apply Msat_free_digraph; [blk|]. intros w3 L3 O3 E3 T3.
  apply Msat_bind. eapply Msat_mono.
  { apply (Msat_union cfg B [dg; prod] [g; product_rows true g (transpose_rows g)] (length g) false (keep_of g) w3); [|done|apply keep_ok].
    constructor; [done|]. constructor; [|constructor]. split; [done|]. unfold product_rows. by rewrite fmap_length, seq_length. }
  fold (ex_rows g). intros [ec out] w4 (L4 & T4 & Hok4 & Her4). simpl in Hok4, Her4. apply Msat_bind.
  destruct (decide (ec <> ER_OK)) as [Hec|Hec].
  { destruct (Her4 Hec) as (O4 & E4 & C4). apply Msat_free_digraph; [blk|]. intros w5 L5 O5 E5 T5. apply Msat_ret.
    splits; [eauto 8|congruence|done|]. intros _. split; [blk|]. split; [done|]. simpl. split; [congruence|].
    destruct C4 as [[C4 F4]|[C4 F4]]; [left|right]; (split; [done|]).
    - intros F. apply F4. eapply no_fail_wle; [done|]. eauto.
    - eapply too_many_mono; [|done]. apply concat_le_sq; [apply ex_rows_length|apply union_rows_nodup|by eapply ex_rows_lt]. }
  assert (ec = ER_OK) as -> by (destruct ec; try done; exfalso; by apply Hec). clear Hec Her4.
  destruct (Hok4 eq_refl) as (O4 & R4 & M4 & E4 & _). clear Hok4.
  apply Msat_free_digraph; [blk|]. intros w5 L5 O5 E5 T5. apply Msat_ret. splits; [eauto 8|congruence| |done].
  intros _. simpl. split; [blk|]. split; [done|].
  rewrite E5. destruct E4 as [-> | ->]; [|by right]. rewrite E3. destruct E2 as [-> | ->]; [|by right]. done.
Qed.

(** ** Not excluded vertices *)

Definition ne_of (g : list (list nat)) (ss : list nat) : list bool :=
  (fun v => bool_decide (addable g ss v)) <$> seq 0 (length g).

Lemma ne_length g ss : length (ne_of g ss) = length g.
Proof. unfold ne_of. by rewrite fmap_length, seq_length. Qed.

Lemma ne_lookup g ss v : v < length g -> ne_of g ss !! v = Some (bool_decide (addable g ss v)).
Proof. intros H. unfold ne_of. rewrite list_lookup_fmap, lookup_seq_lt by done. done. Qed.

Lemma addable_nil g v : addable g [] v <-> adj g v <> [].
Proof.
  unfold addable. split; [tauto|]. intros H. split; [done|]. apply Forall_forall. intros u _ (s & Hs & _). by apply elem_of_nil in Hs.
Qed.

Lemma addable_snoc g ss v x : addable g ss v ->
  addable g (ss ++ [v]) x <-> addable g ss x /\ x <> v /\ ~ conflict g v x.
Proof.
  intros Hv. unfold addable, conflict. rewrite Exists_exists. setoid_rewrite Forall_forall.
  setoid_rewrite covered_app. setoid_rewrite covered_single. split.
  - intros [H1 H2]. split; [split; [done|]; intros u Hu Hc; eapply H2; eauto|].
    assert (x <> v) as Hne. { intros ->. apply (H2 v); [by left|]. right. by left. }
    split; [done|]. intros [_ (u & Hu1 & Hu2)]. eapply H2; eauto.
  - intros [[H1 H2] [H3 H4]]. split; [done|]. intros u Hu [Hc|Hc]; [by eapply H2|].
    apply H4. split; [done|]. eauto.
Qed.

Lemma insert_false (P Q : nat -> Prop) `{!forall x, Decision (P x), !forall x, Decision (Q x)} x n :
  x < n -> (forall y, Q y <-> P y /\ y <> x) ->
  <[x := false]> ((fun y => bool_decide (P y)) <$> seq 0 n) = (fun y => bool_decide (Q y)) <$> seq 0 n.
Proof.
  intros Hx HQ. apply list_eq_same_length with n; [by rewrite fmap_length, seq_length|
    by rewrite insert_length, fmap_length, seq_length|].
  intros i a c Hi. rewrite lookup_insert_dec by (by rewrite fmap_length, seq_length).
  rewrite !list_lookup_fmap, !lookup_seq_lt by done. simpl. intros Ha Hc. injection Hc as <-.
  destruct (decide (x = i)) as [<-|Hne].
  - injection Ha as <-. symmetry. apply bool_decide_eq_false. rewrite HQ. tauto.
  - injection Ha as <-. apply bool_decide_ext. rewrite HQ. split; [|tauto]. intros. split; [done|]. by intros ->.
Qed.

Definition ne_wo (g : list (list nat)) (ss l : list nat) : list bool :=
  (fun v => bool_decide (addable g ss v /\ v ∉ l)) <$> seq 0 (length g).

Lemma ne_wo_lookup g ss l v : v < length g -> ne_wo g ss l !! v = Some (bool_decide (addable g ss v /\ v ∉ l)).
Proof. intros H. unfold ne_wo. rewrite list_lookup_fmap, lookup_seq_lt by done. done. Qed.

Lemma ne_wo_length g ss l : length (ne_wo g ss l) = length g.
Proof. unfold ne_wo. by rewrite fmap_length, seq_length. Qed.

Lemma ne_wo_insert g ss l x : x < length g -> <[x := false]> (ne_wo g ss l) = ne_wo g ss (x :: l).
Proof. intros H. apply insert_false; [done|]. intros y. rewrite elem_of_cons. tauto. Qed.

Lemma ne_wo_ext g ss l l' : (forall x, x ∈ l <-> x ∈ l') -> ne_wo g ss l = ne_wo g ss l'.
Proof. intros H. apply list_fmap_ext. intros _ x _. apply bool_decide_ext. by rewrite H. Qed.

Lemma ne_of_insert g ss v : v < length g -> <[v := false]> (ne_of g ss) = ne_wo g ss [v].
Proof. intros H. apply insert_false; [done|]. intros y. by rewrite elem_of_list_singleton. Qed.

Lemma ne_wo_done dg g ss v : dg_rep cfg dg g -> v < length g -> addable g ss v ->
  ne_wo g ss (adj (ex_rows g) v ++ [v]) = ne_of g (ss ++ [v]).
Proof.
  intros H Hv Ha. apply list_fmap_ext. intros _ x _. apply bool_decide_ext. rewrite addable_snoc by done.
  rewrite elem_of_app, elem_of_list_singleton, (ex_adj dg) by done. destruct Ha as [Ha _]. tauto.
Qed.

(** ** The loop *)

Definition exc_upd (updating : bool) (k v : nat) (ne : option (arr bool)) (ex : digraph) (so : sort_result)
    : R (option (arr bool) * digraph * sort_result) :=
  if updating then
    let! lo := aget (dg_tail ex) v in
    let! hi := aget (dg_tail ex) (v + 1) in
    let! r := exclusion_collect lo hi (dg_head ex) ne in
    let '(head, ne, wr) := r in
    let ex := DG (dg_n ex) (dg_max ex) head (dg_tail ex) in
    let! so := exclusion_decrease cfg ex ne lo wr k so in
    Ok (ne, ex, so)
  else
    let! ne := for_arcs ex v ne (fun x ne => aset ne x false) in
    Ok (ne, ex, so).

Lemma first_loop_sat B dg g b1 b2 : dg_rep cfg dg g ->
  Rsat B (forR (length g) 0 (Some (Arr b1 (fresh bool (length g))), Some (Arr b2 (fresh nat (length g))), 0)
     (fun v '(ne, tmp, num) =>
      let! lo := aget (dg_tail dg) v in
      let! hi := aget (dg_tail dg) (v + 1) in
      let! ne := aset ne v (bool_decide (lo <> hi)) in
      let! tmp := aset tmp num v in
      Ok (ne, tmp, if decide (lo <> hi) then num + 1 else num)))
   (fun '(ne, tmp, num) => ne = farr b1 (ne_of g []) /\
     exists c, tmp = Some (Arr b2 c) /\ filled c (filter (fun v => adj g v <> []) (seq 0 (length g))) /\
       num = length (filter (fun v => adj g v <> []) (seq 0 (length g)))).
Proof.
  intros H. eapply Rsat_mono.
  - apply (forR_sat B (fun k '(ne, tmp, num) => exists nc tc, ne = Some (Arr b1 nc) /\ length nc = length g /\
      (forall v, v < k -> nc !! v = Some (Some (bool_decide (addable g [] v)))) /\
      tmp = Some (Arr b2 tc) /\ length tc = length g /\ filled tc (filter (fun v => adj g v <> []) (seq 0 k)) /\
      num = length (filter (fun v => adj g v <> []) (seq 0 k)))).
    + exists (fresh bool (length g)), (fresh nat (length g)). unfold fresh. rewrite !replicate_length. splits; auto; [lia|apply filled_nil].
    + intros v [[ne tmp] num] Hv (nc & tc & -> & Ln & Hn & -> & Lt & Hf & ->).
      rewrite !(rep_tail_get cfg dg g) by (done || lia). cbn [Rbind].
      rewrite aset_cells by lia. cbn [Rbind].
      assert (length (filter (fun v => adj g v <> []) (seq 0 v)) <= v) as Hlen.
      { etransitivity; [apply filter_length|]. by rewrite seq_length. }
      rewrite aset_cells by lia. simpl.
      exists (<[v := Some (bool_decide (offs g v <> offs g (v + 1)))]> nc),
             (<[length (filter (fun v => adj g v <> []) (seq 0 v)) := Some v]> tc).
      split; [done|]. rewrite !insert_length. split; [done|]. split.
      { intros u Hu. rewrite lookup_insert_dec by lia. destruct (decide (v = u)) as [<-|]; [|apply Hn; lia].
        do 2 f_equal. apply bool_decide_ext. rewrite addable_nil. pose proof (offs_eq_adj g v ltac:(lia)). tauto. }
      split; [done|]. split; [done|].
      pose proof (offs_eq_adj g v ltac:(lia)) as Ho.
      change (0 :: seq 1 v) with (seq 0 (S v)). rewrite seq_S, filter_app. change (0 + v) with v. rewrite filter_cons. rewrite filter_nil.
      destruct (decide (offs g v <> offs g (v + 1))) as [E|E].
      * rewrite decide_True by tauto. split; [apply filled_snoc; [done|lia]|]. rewrite app_length. done.
      * rewrite decide_False by tauto. rewrite app_nil_r. split; [|done].
        destruct Hf as [rest ->]. rewrite insert_app_r_alt by (rewrite fmap_length; lia). by eexists.
  - intros [[ne tmp] num] (nc & tc & -> & Ln & Hn & -> & Lt & Hf & ->). simpl in *. split; [|eauto].
    do 2 f_equal. apply list_eq_same_length with (length g); [by rewrite fmap_length, ne_length|done|].
    intros i x y Hi Hx. rewrite Hn in Hx by done. rewrite list_lookup_fmap, ne_lookup by done. simpl. congruence.
Qed.

Lemma keep_sat B (c : list (option nat)) num (l : list nat) : filled c l -> num = length l ->
  Rsat B (forR num 0 [] (fun i acc => let! x := cget c i in Ok (acc ++ [x]))) (fun r => r = l).
Proof.
  intros Hf ->. eapply Rsat_mono.
  - apply (forR_sat B (fun k acc => acc = take k l)); [done|]. intros k acc Hk ->.
    destruct (lookup_lt_is_Some_2 l k) as [x Hx]; [lia|]. erewrite cget_ok by (by eapply filled_lookup). simpl.
    by rewrite (take_S_r _ _ x).
  - simpl. intros r ->. by rewrite firstn_all.
Qed.

Lemma no_fail_or (w w' : world) (X : Prop) : (no_fail w \/ X) -> wle w w' -> no_fail w' \/ X.
Proof. intros [H|H] L; [left; by eapply no_fail_wle|by right]. Qed.

Lemma seed_failI (TL TL0 : Prop) w w1 w2 w' ec : wle w w1 -> w_err w' = w_err w2 -> (TL0 -> TL) ->
  seed_fail TL0 w1 ec w2 -> seed_fail TL w ec w'.
Proof.
  intros L E HT (F1 & F2 & F3). split; [done|]. split; [congruence|]. destruct F3 as [[-> F3]|[-> F3]]; [left|right].
  - split; [done|]. intros F. apply F3. by eapply no_fail_wle.
  - auto.
Qed.

Lemma exclusion_loop B dg g (updating : bool) (SI : nat -> list nat -> digraph -> sort_result -> Prop) (P : list nat -> Prop) cap w :
  dg_rep cfg dg g -> (N.of_nat (length g) <= pi_max cfg)%N ->
  (no_fail w \/ (B NullPtr /\ 0 < length g)) ->
  (forall k ss ex so, SI k ss ex so -> length ss <= k) ->
  (forall ex so w0 w1, dg_rep cfg ex (ex_rows g) -> sort_post updating (ex_rows g) w0 (ER_OK, so) w1 -> SI 0 [] ex so) ->
  (forall b k ss ex so, k < length g -> SI k ss ex so -> exists v, aget (so_sv so) k = Ok v /\ v < length g /\
     (if decide (addable g ss v) then
        Rsat B (exc_upd updating k v (farr b (ne_wo g ss [v])) ex so) (fun '(ne', ex', so') =>
          ne' = farr b (ne_of g (ss ++ [v])) /\
          dg_blocks ex' = dg_blocks ex /\ so_blocks so' = so_blocks so /\ SI (S k) (ss ++ [v]) ex' so')
      else SI (S k) ss ex so)) ->
  (forall ss ex so, SI (length g) ss ex so -> P ss) ->
  Msat B (findseeds_exclusion cfg dg updating (SR cap 0 None)) w
    (seeds_post cfg ((cl_max cfg < N.of_nat (length g))%N \/ too_many_arcs cfg (length g * length g) = true)
       (exists v, v < length g /\ adj g v = []) P w).
Proof.
  intros H Hpi HB Hlen Hinit Hstep Hend. unfold findseeds_exclusion. rewrite (rep_n _ _ _ H). cbn [sr_cap sr_count].
  set (TL := (cl_max cfg < N.of_nat (length g))%N \/ too_many_arcs cfg (length g * length g) = true).
  set (LK := exists v, v < length g /\ adj g v = []).
  apply Msat_bind, Msat_malloc_arr.
  { intros w1 L1 O1 E1 T1 F1. apply Msat_bind, Msat_make_error__. intros w2 L2 O2 E2 T2. apply Msat_ret.
    split; [eauto|]. split; [congruence|]. split; [done|]. intros _. split.
    - split; [done|]. rewrite E2. split; [done|]. by left.
    - exists []. split; [blk|by left]. }
  intros w1 b1 L1 O1 E1 T1. apply Msat_bind, Msat_malloc_arr.
  { intros w2 L2 O2 E2 T2 F2. destruct HB as [F|[HB Hn]]; [exfalso; apply F2; by eapply no_fail_wle|].
    apply Msat_bind, Msat_bind, Msat_free_arr; [simpl; blk|]. intros w3 L3 O3 E3 T3.
    apply Msat_bind, Msat_make_error__. intros w4 L4 O4 E4 T4. apply Msat_ret. apply Msat_bind, Msat_lift.
    destruct (length g) as [|n] eqn:En; [lia|]. cbn [forR].
    rewrite !(rep_tail_get cfg dg g) by (done || lia). cbn [Rbind].
    rewrite aset_cells by (unfold fresh; rewrite replicate_length; lia). simpl. done. }
  intros w2 b2 L2 O2 E2 T2. apply Msat_bind, Msat_ret.
  apply Msat_bind, Msat_lift. eapply Rsat_mono; [by apply first_loop_sat|].
  intros [[ne tmp] num] (-> & tc & -> & Hf & ->).
  set (kl := filter (fun v => adj g v <> []) (seq 0 (length g))) in *.
  (* the list of kept tails *)
  assert (exists tb, keep_of g = (if decide (length kl = length g) then None else Some kl) /\
     forall Q : ecode * seed_result -> world -> Prop, forall K : option (arr nat) -> option (list nat) -> M (ecode * seed_result),
     (forall w3, wle w w3 -> w_tick w3 = w_tick w -> w_err w3 = w_err w -> own w3 (b1 :: arr_blk tb) w ->
        (tb = None \/ LK) -> Msat B (K tb (keep_of g)) w3 Q) ->
     Msat B (let* r := (if decide (length kl = length g) then let* _ := free_arr (Some (Arr b2 tc)) in Mret (None, 0)
                 else Mret (Some (Arr b2 tc), length kl)) in
             let '(tmp, num) := r in
             let* keep := lift (match tmp with
                       | None => Ok None
                       | Some a =>
                           let! l := forR num 0 [] (fun i acc =>
                             let! x := cget (a_cells a) i in Ok (acc ++ [x])) in
                           Ok (Some l)
                       end) in K tmp keep) w2 Q) as (tb & Hkeep & Hk).
  { exists (if decide (length kl = length g) then None else Some (Arr b2 tc)). split; [done|]. intros Q K HK.
    unfold keep_of in *. fold kl in HK |- *. destruct (decide (length kl = length g)) as [El|El].
    - apply Msat_bind, Msat_bind, Msat_free_arr; [simpl; blk|]. intros w3 L3 O3 E3 T3. apply Msat_ret.
      apply Msat_bind, Msat_lift. simpl. apply HK; [eauto|congruence|congruence|simpl; blk|by left].
    - apply Msat_bind, Msat_ret. apply Msat_bind, Msat_lift, Rsat_bind. eapply Rsat_mono; [by eapply keep_sat|].
      intros r ->. simpl. apply HK; [eauto|congruence|congruence|simpl; blk|]. right.
      destruct (decide (Exists (fun v => adj g v = []) (seq 0 (length g)))) as [He|He].
      + apply Exists_exists in He as (v & Hv & Ha). rewrite elem_of_seq in Hv. exists v. split; [lia|done].
      + exfalso. apply El. unfold kl. assert (filter (fun v => adj g v <> []) (seq 0 (length g)) = seq 0 (length g)) as ->; [|by rewrite seq_length].
        apply Forall_Exists_neg in He. clear - He. induction He as [|x l Hx Hl IH]; [done|]. rewrite filter_cons_True by done. by f_equal. }
  apply (Hk _ (fun tmp keep => let* r := exclusion_graph cfg dg keep in _)). clear Hk Hf.
  intros w3 L3 T3 E3 O3 Htb. clear O1 O2 L1 L2 E1 E2 T1 T2.
  apply Msat_bind. eapply Msat_mono; [by apply Msat_exclusion_graph|]. intros [ec ex] w4 (L4 & T4 & Hok & Her).
  simpl in Hok, Her. destruct (decide (ec <> ER_OK)) as [Hec|Hec].
  { destruct (Her Hec) as [O4 F4]. apply Msat_bind, Msat_free_arr; [simpl; blk|]. intros w5 L5 O5 E5 T5. apply Msat_ret.
    split; [eauto|]. split; [congruence|]. simpl. split; [done|]. intros _. split.
    - eapply seed_failI; [exact L3|exact E5| |exact F4]. unfold TL. tauto.
    - exists (arr_blk tb). split; [blk|]. destruct Htb as [->|Htb]; [by left|by right]. }
  assert (ec = ER_OK) as -> by (destruct ec; try done; exfalso; by apply Hec). clear Hec Her.
  destruct (Hok eq_refl) as (O4 & R4 & E4). clear Hok.
  apply Msat_bind, Msat_free_arr; [simpl; blk|]. intros w5 L5 O5 E5 T5.
  apply Msat_bind. eapply Msat_mono.
  { apply (Msat_sort_by_inwards cfg B ex (ex_rows g) updating w5 R4). intros v _. pose proof (icf_le (ex_rows g) v (union_rows_nodup _ _ _ _)).
    rewrite ex_rows_length in *. lia. }
  intros [ec so] w6 Hpost. pose proof Hpost as (L6 & T6 & Hok & Her). simpl in Hok, Her.
  assert (w_err w5 = w_err w \/ w_err w5 = no_errst) as E5'. { rewrite E5, <- E3. destruct E4 as [-> | ->]; auto. }
  destruct (decide (ec <> ER_OK)) as [Hec|Hec].
  { destruct (Her Hec) as (-> & F6 & O6 & E6). apply Msat_bind, Msat_free_arr; [simpl; blk|]. intros w7 L7 O7 E7 T7.
    apply Msat_bind, Msat_free_digraph; [blk|]. intros w8 L8 O8 E8 T8. apply Msat_ret.
    split; [eauto 10|]. split; [congruence|]. simpl. split; [done|]. intros _. split.
    - split; [done|]. split; [congruence|]. left. split; [done|]. intros F. apply F6. eapply no_fail_wle; [done|]. eauto 8.
    - exists []. split; [blk|by left]. }
  assert (ec = ER_OK) as -> by (destruct ec; try done; exfalso; by apply Hec). clear Hec Her.
  destruct (Hok eq_refl) as (O6 & E6 & _). clear Hok. apply (Hinit ex so w5 w6 R4) in Hpost.
  assert (wle w w6) as L6' by eauto 8.
  apply Msat_bind, Msat_malloc_arr.
  { intros w7 L7 O7 E7 T7 F7. apply Msat_bind, Msat_free_arr; [simpl; blk|]. intros w8 L8 O8 E8 T8.
    apply Msat_bind, Msat_free_digraph; [blk|]. intros w9 L9 O9 E9 T9.
    apply Msat_bind, Msat_free_sort; [blk|]. intros w10 L10 O10 E10 T10.
    apply Msat_bind, Msat_make_error__. intros w11 L11 O11 E11 T11. apply Msat_ret.
    split; [eauto 10|]. split; [congruence|]. simpl. split; [done|]. intros _. split.
    - split; [done|]. rewrite E11. split; [done|]. left. split; [done|]. intros F. apply F7. by eapply no_fail_wle.
    - exists []. split; [blk|by left]. }
  intros w7 b3 L7 O7 E7 T7. apply Msat_bind.
  assert (own w7 ([b1; b3] ++ dg_blocks ex ++ so_blocks so) w) as O7' by blk.
  assert (w_err w7 = w_err w \/ w_err w7 = no_errst) as E7' by (rewrite E7, E6; done).
  assert (w_tick w7 = w_tick w) as T7' by congruence. assert (wle w w7) as L7' by eauto.
  clear - Hstep Hend Hlen Hpost O7' E7' T7' L7' H.
  apply (loopM_sat B (fun k '(ne, ex, sr, so) w' => exists ss b, wle w w' /\ w_tick w' = w_tick w /\
       (w_err w' = w_err w \/ w_err w' = no_errst) /\
       own w' ([b1; b] ++ dg_blocks ex ++ so_blocks so) w /\ ne = farr b1 (ne_of g ss) /\ seed_st cfg sr ss b /\ SI k ss ex so)
     (fun r w' => seeds_post cfg TL LK P w r w')).
  - exists [], b3. splits; [done|done|done|done|done|apply seed_st_init|done].
  - clear ex so Hpost O7'. intros k [[[ne ex] sr] so] w3 Hk (ss & b & L3 & T3 & E3 & O3 & -> & Hst & HSI).
    unfold exclusion_step. destruct (Hstep b1 k ss ex so Hk HSI) as (v & Hv & Hvn & Hs). rewrite Hv.
    apply Msat_bind, Msat_lift. simpl Rsat.
    apply Msat_bind, Msat_lift. rewrite (aget_farr _ _ _ _ (ne_lookup g ss v Hvn)). simpl Rsat.
    destruct (decide (addable g ss v)) as [Ha|Ha].
    + rewrite bool_decide_eq_true_2 by done. apply Msat_bind. eapply Msat_add_seed; [done|blk| |].
      * intros ec sr' w4 Hs4 L4 T4 O4 Hf. rewrite decide_True by apply Hf.
        destruct Hst as (c & Hs' & _). rewrite Hs4, Hs'.
        apply Msat_bind, Msat_free_arr; [simpl; blk|]. intros w5 L5 O5 E5 T5.
        apply Msat_bind, Msat_free_digraph; [blk|]. intros w8 L8 O8 E8 T8.
        apply Msat_bind, Msat_free_sort; [blk|]. intros w7' L9 O9 E9 T9.
        apply Msat_bind, Msat_free_arr; [simpl; blk|]. intros w6 L6 O6 E6 T6.
        apply Msat_ret. simpl. split; [eauto 10|]. split; [congruence|]. simpl.
        split; [intros ->; by destruct Hf as [? _]|]. intros _. split.
        -- eapply seed_failI; [exact L3| | |exact Hf]; [congruence|]. intros. left. pose proof (Hlen _ _ _ _ HSI). lia.
        -- exists []. split; [blk|by left].
      * intros sr' w4 b' Hst' L4 T4 E4 O4. rewrite decide_False by (intros Hn; by apply Hn).
        apply Msat_bind, Msat_lift. rewrite aset_farr by (by rewrite ne_length). simpl Rsat.
        rewrite ne_of_insert by done. unfold exc_upd in Hs. destruct updating.
        -- apply Msat_bind, Msat_lift. eapply Rsat_mono; [exact Hs|]. intros [[ne' ex'] so'] (-> & Hb1 & Hb2 & HSI').
           apply Msat_ret. exists (ss ++ [v]), b'. rewrite Hb1, Hb2. splits; [eauto|congruence| |blk|done|done|done].
           rewrite E4. done.
        -- apply Msat_bind, Msat_lift. destruct (for_arcs ex v _ _) as [ne'|] eqn:Ef; [|exact Hs]. simpl in Hs |- *.
           destruct Hs as (-> & Hb1 & Hb2 & HSI'). apply Msat_ret. exists (ss ++ [v]), b'.
           splits; [eauto|congruence| |blk|done|done|done]. by rewrite E4.
    + rewrite bool_decide_eq_false_2 by done. apply Msat_ret. exists ss, b. splits; auto.
  - clear ex so Hpost O7'. intros [[[ne ex] sr] so] w3. intros (ss & b & L3 & T3 & E3 & O3 & -> & Hst & HSI).
    apply Msat_bind, Msat_free_arr; [simpl; blk|]. intros w4 L4 O4 E4 T4.
    apply Msat_bind, Msat_free_digraph; [blk|]. intros w8 L8 O8 E8 T8.
    apply Msat_bind, Msat_free_sort; [blk|]. intros w5 L5 O5 E5 T5. apply Msat_ret.
    split; [eauto 8|]. split; [congruence|]. split; [|done]. intros _.
    exists ss, b. splits; eauto; [blk|]. by rewrite E5, E8, E4.
  - intros r w3 Hp. by apply Msat_ret.
Qed.

Lemma mark_row_sat B dg g ss v b ex : dg_rep cfg dg g -> dg_rep cfg ex (ex_rows g) -> v < length g -> addable g ss v ->
  Rsat B (for_arcs ex v (farr b (ne_wo g ss [v])) (fun x ne => aset ne x false))
    (fun ne => ne = farr b (ne_of g (ss ++ [v]))).
Proof.
  intros H Hex Hv Ha. rewrite (for_arcs_fold cfg ex (ex_rows g) v (adj (ex_rows g) v));
    [|done|apply adj_lookup; by rewrite ex_rows_length].
  rewrite <- (ne_wo_done dg) by done.
  apply (foldR_sat B (fun pre ne => ne = farr b (ne_wo g ss (pre ++ [v])))); [done|].
  intros pre x post ne Heq ->.
  assert (x ∈ adj (ex_rows g) v) as Hx by (rewrite Heq; apply elem_of_app; right; left).
  assert (x < length g) as Hxn. { rewrite <- ex_rows_length. by eapply adj_head_lt. }
  rewrite aset_farr by (by rewrite ne_wo_length). simpl. rewrite ne_wo_insert by done. do 3 f_equal.
  apply ne_wo_ext. intros y. rewrite elem_of_cons, !elem_of_app, !elem_of_list_singleton. tauto.
Qed.

Lemma Msat_exclusion_order B dg g cap w : dg_rep cfg dg g -> (N.of_nat (length g) <= pi_max cfg)%N ->
  (no_fail w \/ (B NullPtr /\ 0 < length g)) ->
  Msat B (findseeds_exclusion cfg dg false (SR cap 0 None)) w
    (seeds_post cfg ((cl_max cfg < N.of_nat (length g))%N \/ too_many_arcs cfg (length g * length g) = true)
       (exists v, v < length g /\ adj g v = [])
       (fun ss => exists ord, ordered_by (length g) (conflicts_from (fun _ => true) g) ord /\ ss = greedy g [] ord) w).
Proof.
  intros H Hpi HB.
  apply (exclusion_loop B dg g false (fun k ss ex so => dg_rep cfg ex (ex_rows g) /\ exists b sv, so = Sort None (farr b sv) None None /\
     sorted_list (icf (ex_rows g)) (length g) sv /\ k <= length g /\ ss = greedy g [] (take k sv))); [done|done|done| | | |].
  - intros k ss ex so (_ & b & sv & _ & (Ls & _) & Hk & ->). etransitivity; [apply greedy_le_n|]. rewrite take_length. lia.
  - intros ex so w0 w1 Hex (_ & _ & Hok & _). split; [done|]. destruct (Hok eq_refl) as (_ & _ & sv & Hs & b & Hb). simpl in Hb. subst so.
    rewrite ex_rows_length in Hs. exists b, sv. splits; auto. lia.
  - intros b0 k ss ex so Hk (Hex & b & sv & -> & Hs & _ & ->). pose proof Hs as [Ls Hr].
    pose proof (sorted_list_ordered _ _ _ Hs) as [Hp _].
    destruct (lookup_lt_is_Some_2 sv k) as [v Hv]; [lia|]. exists v.
    split; [by apply aget_farr|].
    assert (v < length g) as Hvn. { apply elem_of_list_lookup_2 in Hv. rewrite Hp, elem_of_seq in Hv. lia. }
    split; [done|].
    pose proof (greedy_take_S g sv k v Hv) as Hg.
    destruct (decide (addable g (greedy g [] (take k sv)) v)).
    + unfold exc_upd. apply Rsat_bind. eapply Rsat_mono; [by eapply mark_row_sat|]. intros ne ->. simpl.
      splits; auto. exists b, sv. splits; auto.
    + split; [done|]. exists b, sv. splits; auto.
  - intros ss ex so (_ & b & sv & -> & Hs & _ & ->). exists sv. pose proof Hs as [Ls _].
    pose proof (sorted_list_ordered _ _ _ Hs) as [Hp Ho]. rewrite <- Ls, firstn_all, Ls. split; [|done]. split; [done|].
    intros i j u v Hij Hu Hv. rewrite <- !(ex_key_all dg) by done. by eapply Ho.
Qed.

(** ** Updating *)

Lemma addable_mono g ss ss' v : addable g (ss ++ ss') v -> addable g ss v.
Proof.
  intros [H1 H2]. split; [done|]. eapply Forall_impl; [done|]. intros u Hu Hc. apply Hu. rewrite covered_app. by left.
Qed.

Lemma greedy_visited g ord u : u ∈ ord -> ~ addable g (greedy g [] ord) u.
Proof.
  induction ord as [|v ord IH] using rev_ind; intros Hu; [by apply elem_of_nil in Hu|].
  rewrite greedy_snoc. rewrite elem_of_app, elem_of_list_singleton in Hu.
  destruct (decide (addable g (greedy g [] ord) v)) as [Ha|Ha].
  - intros Hc. rewrite addable_snoc in Hc by done. destruct Hu as [Hu| ->]; [|tauto]. apply IH; tauto.
  - destruct Hu as [Hu| ->]; [auto|done].
Qed.

Lemma addable_not_seed g ss v : addable g ss v -> v ∉ ss.
Proof.
  intros [_ H] Hv. inversion H as [|? ? H1 _]; subst. apply H1. exists v. split; [done|]. by left.
Qed.

Lemma collect_sat B dg g ss v b ex rows r : dg_rep cfg dg g -> dg_rep cfg ex rows -> length rows = length g ->
  v < length g -> addable g ss v -> rows !! v = Some r -> r = adj (ex_rows g) v ->
  Rsat B (exclusion_collect (offs rows v) (offs rows (v + 1)) (dg_head ex) (farr b (ne_wo g ss [v])))
    (fun '(head, ne, wr) => let X := filter (addable g ss) r in
       wr = offs rows v + length X /\ ne = farr b (ne_of g (ss ++ [v])) /\ arr_blk head = arr_blk (dg_head ex) /\
       dg_rep cfg (DG (dg_n ex) (dg_max ex) head (dg_tail ex)) (<[v := X ++ drop (length X) r]> rows)).
Proof.
  intros H Hex Hl Hv Ha Hr Er. unfold exclusion_collect, for_ptr.
  rewrite Nat.add_1_r, (offs_S rows v r) by done. rewrite decide_False by lia. replace (offs rows v + length r - offs rows v) with (length r) by lia.
  assert (NoDup r) as Hnd. { rewrite Er. apply adj_nodup, union_rows_nodup. }
  assert (forall x, x ∈ r -> x < length g /\ x <> v) as Hrx.
  { intros x Hx. rewrite Er in Hx. rewrite (ex_adj dg) in Hx by done. destruct Hx as [_ Hx]. split; [by eapply conflict_lt|].
    destruct Hx as [? _]. done. }
  eapply Rsat_mono.
  - apply (forR_sat B (fun i '(head, ne, wr) => exists k, i = offs rows v + k /\ let X := filter (addable g ss) (take k r) in
       wr = offs rows v + length X /\ ne = farr b (ne_wo g ss (take k r ++ [v])) /\ arr_blk head = arr_blk (dg_head ex) /\
       dg_rep cfg (DG (dg_n ex) (dg_max ex) head (dg_tail ex)) (<[v := X ++ drop (length X) r]> rows))).
    + exists 0. rewrite take_0. simpl. splits; auto; try lia. rewrite drop_0, list_insert_id by done. by destruct ex.
    + intros i [[head ne] wr] Hi (k & -> & HI). cbv zeta in HI. set (X := filter (addable g ss) (take k r)) in *.
      destruct HI as (-> & -> & Hb & Hrep).
      assert (k < length r) as Hk by lia. destruct (lookup_lt_is_Some_2 r k Hk) as [x Hx].
      assert (x ∈ r) as Hxr by (by eapply elem_of_list_lookup_2). destruct (Hrx x Hxr) as [Hxn Hxv].
      assert (length X <= k) as HXk. { unfold X. etransitivity; [apply filter_length|]. rewrite take_length. lia. }
      set (r1 := X ++ drop (length X) r) in *.
      assert (length r1 = length r) as Lr1. { unfold r1. rewrite app_length, drop_length. lia. }
      set (rows1 := <[v:=r1]> rows) in *.
      assert (rows1 !! v = Some r1) as Hr1 by (apply list_lookup_insert; lia).
      assert (forall j, offs rows1 j = offs rows j) as Ho by (intros; by eapply offs_insert).
      assert (r1 !! k = Some x) as Hxk. { unfold r1. rewrite lookup_app_r, lookup_drop by lia. by replace (length X + (k - length X)) with k by lia. }
      pose proof (rep_head_get cfg _ rows1 v r1 k x Hrep Hr1 Hxk) as Hg. cbn [dg_head] in Hg. rewrite Ho in Hg. rewrite Hg. cbn [Rbind].
      rewrite (aget_farr _ _ _ _ (ne_wo_lookup g ss _ x Hxn)). cbn [Rbind].
      assert (x ∉ take k r ++ [v]) as Hxp.
      { rewrite elem_of_app, elem_of_list_singleton. intros [(j & Hj)%elem_of_list_lookup|]; [|done].
        apply lookup_take_Some in Hj as [Hj Hjk]. pose proof (NoDup_lookup _ _ _ _ Hnd Hj Hx). lia. }
      assert (ne_wo g ss (x :: take k r ++ [v]) = ne_wo g ss (take (S k) r ++ [v])) as Hnext.
      { apply ne_wo_ext. intros y. rewrite (take_S_r _ _ x) by done. rewrite elem_of_cons, !elem_of_app, !elem_of_list_singleton. tauto. }
      assert (filter (addable g ss) (take (S k) r) = X ++ (if decide (addable g ss x) then [x] else [])) as HX'.
      { rewrite (take_S_r _ _ x) by done. rewrite filter_app, filter_cons, filter_nil. done. }
      case_bool_decide as Hm.
      * destruct Hm as [Hm _]. destruct (rep_set _ _ v r1 (length X) x Hrep Hr1) as (h & Hh & Hbh & Hrep'); [lia|unfold rows1; rewrite insert_length; lia|].
        cbn [dg_head dg_n dg_max dg_tail] in *. rewrite Ho in Hh. rewrite Hh. cbn [Rbind].
        rewrite aset_farr by (by rewrite ne_wo_length). simpl. rewrite ne_wo_insert by done. exists (S k). rewrite Hnext.
        cbv zeta. rewrite HX', decide_True by done. rewrite app_length. simpl. splits; [lia|lia|done|congruence|].
        unfold rows1 in Hrep'. rewrite list_insert_insert in Hrep'.
        assert (<[length X:=x]> r1 = (X ++ [x]) ++ drop (length X + 1) r) as <-; [|done].
        unfold r1. rewrite insert_app_r_alt, Nat.sub_diag by done.
        destruct (drop (length X) r) as [|y d] eqn:Ed.
        { apply (f_equal length) in Ed. rewrite drop_length in Ed. simpl in Ed. lia. }
        simpl. rewrite <- app_assoc. simpl. do 2 f_equal. rewrite <- drop_drop, Ed. done.
      * cbn [Rbind]. rewrite aset_farr by (by rewrite ne_wo_length). simpl. rewrite ne_wo_insert by done. exists (S k). rewrite Hnext.
        cbv zeta. rewrite HX', decide_False by tauto. rewrite app_nil_r. splits; [lia|done|done|done|done].
  - intros [[head ne] wr] (k & Hk & HI). assert (k = length r) as -> by lia. rewrite firstn_all in HI. cbv zeta in *.
    destruct HI as (-> & -> & Hb & Hrep). splits; auto. do 3 f_equal. rewrite Er. by eapply ne_wo_done.
Qed.

Lemma decrease_sat_ex B g ss' b ex rows k pre bs ic so v r X : dg_rep cfg ex rows -> length rows = length g ->
  rows !! v = Some r -> (exists rest, r = X ++ rest) ->
  (forall x, x ∈ X -> x < length g /\ adj rows x = adj (ex_rows g) x) ->
  (forall y, addable g ss' y -> y ∉ pre) ->
  sst cfg (length g) k pre bs ic so ->
  (forall y c, bool_decide (addable g ss' y) = true -> ic !! y = Some c -> cnt y (concat (adj (ex_rows g) <$> X)) <= c) ->
  Rsat B (exclusion_decrease cfg ex (farr b (ne_of g ss')) (offs rows v) (offs rows v + length X) k so)
    (sst cfg (length g) k pre bs (dec_ic (fun y => bool_decide (addable g ss' y)) (concat (adj (ex_rows g) <$> X)) ic)).
Proof.
  intros Hex Hl Hr [rest Hrest] HX Hpre Hs Hc. unfold exclusion_decrease, for_ptr.
  rewrite decide_False by lia. replace (offs rows v + length X - offs rows v) with (length X) by lia.
  rewrite (forR_foldR (fun x so => for_arcs ex x so (fun y so =>
      let! m := aget (farr b (ne_of g ss')) y in
      if (m : bool) then decrease_v_in_sort cfg y so k else Ok so)) (aget (dg_head ex)) X).
  2:{ intros j x Hj. apply (rep_head_get cfg ex rows v r j x Hex Hr). rewrite Hrest. by apply lookup_app_l_Some. }
  apply (foldR_sat B (fun l so => sst cfg (length g) k pre bs
     (dec_ic (fun y => bool_decide (addable g ss' y)) (concat (adj (ex_rows g) <$> l)) ic) so)).
  { simpl. replace (dec_ic _ [] ic) with ic; [done|]. apply list_eq. intros i. rewrite dec_ic_lookup.
    destruct (ic !! i); simpl; [|done]. f_equal. destruct (bool_decide _); lia. }
  intros l x post so' Heq Hs'.
  assert (x ∈ X) as Hx by (rewrite Heq; apply elem_of_app; right; left).
  destruct (HX x Hx) as [Hxn Hxa].
  rewrite fmap_app, concat_app. csimpl. rewrite app_nil_r, <- dec_ic_app.
  rewrite (for_arcs_fold cfg ex rows x (adj (ex_rows g) x)) by (done || (rewrite <- Hxa; apply adj_lookup; lia)).
  assert (forall y, y ∈ adj (ex_rows g) x -> y < length g) as Hlt.
  { intros y Hy. rewrite <- Hxa in Hy. rewrite <- Hl. by eapply adj_head_lt. }
  apply dec_fold; [| |done|].
  - intros y ic' so1 Hy Hs1. rewrite (aget_farr _ _ _ _ (ne_lookup g ss' y (Hlt y Hy))). done.
  - intros y Hy Hcy. apply bool_decide_eq_true in Hcy. auto.
  - intros y c Hcy Hyc. rewrite dec_ic_lookup in Hyc. destruct (ic !! y) as [c0|] eqn:Ey; [|done]. simpl in Hyc.
    rewrite Hcy in Hyc. specialize (Hc y c0 Hcy Ey). rewrite Heq in Hc.
    rewrite fmap_app, concat_app in Hc. csimpl in Hc. rewrite !cnt_app in Hc. injection Hyc as <-. lia.
Qed.

Definition exc_si (g : list (list nat)) (k : nat) (ss : list nat) (ex : digraph) (so : sort_result) : Prop :=
  exists rows bs ic sv vi bi, dg_rep cfg ex rows /\ length rows = length g /\
    (forall x, x < length g -> x ∉ ss -> adj rows x = adj (ex_rows g) x) /\
    so = mk_sort bs.1.1.1 bs.1.1.2 bs.1.2 bs.2 ic sv vi bi /\
    sort_inv (length g) k ic sv vi bi /\ tied (stable_seeds cfg) k ic sv /\ k <= length g /\ ss = greedy g [] (take k sv) /\
    vs_prefix (stable_seeds cfg) (length g) (exclusion_elig g) (exclusion_key g) (take k sv) /\
    (forall y, y < length g -> exclusion_elig g (take k sv) y ->
       ic !! y = Some (exclusion_key g (take k sv) y)).

Lemma exc_vs g k v ic sv vi bi : sort_inv (length g) k ic sv vi bi -> tied (stable_seeds cfg) k ic sv -> k < length g -> sv !! k = Some v ->
  vs_prefix (stable_seeds cfg) (length g) (exclusion_elig g) (exclusion_key g) (take k sv) ->
  (forall y, y < length g -> exclusion_elig g (take k sv) y ->
       ic !! y = Some (exclusion_key g (take k sv) y)) ->
  vs_prefix (stable_seeds cfg) (length g) (exclusion_elig g) (exclusion_key g) (take (S k) sv).
Proof.
  intros Hs Hti Hk Hv Hvs Hic. rewrite (take_S_r _ _ v) by done. apply vs_snoc; [done|]. intros Ev u Hu Hup Huv Eu.
  destruct (si_sv_lt _ _ _ _ _ _ _ _ Hs Hv) as [_ Hvn].
  destruct (lookup_lt_is_Some_2 vi u) as [q Hq]; [by rewrite (si_vi _ _ _ _ _ _ Hs)|].
  assert (k <= q) as Hkq.
  { destruct (decide (k <= q)); [done|]. exfalso. apply Hup. apply elem_of_list_lookup. exists q.
    rewrite lookup_take by lia. by apply (si_bij _ _ _ _ _ _ Hs). }
  apply (si_bij _ _ _ _ _ _ Hs) in Hq. assert (k <> q) by congruence.
  split; [eapply (si_sorted _ _ _ _ _ _ k q v u _ _ Hs); eauto; lia|].
  intros Hst E. apply (Hti Hst k q v u (exclusion_key g (take k sv) v)); auto; [lia|]. rewrite E. auto.
Qed.

Lemma conflicts_arcs dg g P y : dg_rep cfg dg g -> conflicts_from P g y = arcs_from P (ex_rows g) y.
Proof.
  intros H. unfold conflicts_from, arcs_from. rewrite ex_rows_length, !nb_filter. apply nb_ext. intros x Hx.
  apply bool_decide_ext. rewrite (ex_adj dg) by done. tauto.
Qed.

Lemma Msat_exclusion_updating B dg g cap w : dg_rep cfg dg g -> (N.of_nat (length g) <= pi_max cfg)%N ->
  (no_fail w \/ (B NullPtr /\ 0 < length g)) ->
  Msat B (findseeds_exclusion cfg dg true (SR cap 0 None)) w
    (seeds_post cfg ((cl_max cfg < N.of_nat (length g))%N \/ too_many_arcs cfg (length g * length g) = true)
       (exists v, v < length g /\ adj g v = [])
       (fun ss => exists ord, visits (stable_seeds cfg) (length g) (exclusion_elig g) (exclusion_key g) ord /\ ss = greedy g [] ord) w).
Proof.
  intros H Hpi HB. apply (exclusion_loop B dg g true (exc_si g)); [done|done|done| | | |].
  - intros k ss ex so (rows & bs & ic & sv & vi & bi & _ & _ & _ & -> & Hs & _ & Hk & -> & _).
    etransitivity; [apply greedy_le_n|]. rewrite take_length. lia.
  - intros ex so w0 w1 Hex (_ & _ & Hok & _). destruct (Hok eq_refl) as (_ & _ & sv & Hsl & b1 & b2 & b3 & b4 & ic & vi & bi & Hb & Hs & Hic).
    simpl in Hb. subst so. rewrite ex_rows_length in *. exists (ex_rows g), (b1, b2, b3, b4), ic, sv, vi, bi. rewrite take_0.
    splits; auto; [by rewrite ex_rows_length|by eapply sorted_list_tied|lia|apply vs_nil|]. intros y Hy _. rewrite Hic by done. f_equal.
    rewrite (ex_key_all dg) by done. unfold exclusion_key, conflicts_from. f_equal. apply list_filter_iff. intros x.
    rewrite bool_decide_eq_true. simpl. rewrite addable_nil. tauto.
  - intros b0 k ss ex so Hk (rows & bs & ic & sv & vi & bi & Hex & Hl & Hrows & -> & Hs & Hti & _ & Hss & Hvs & Hic).
    destruct (lookup_lt_is_Some_2 sv k) as [v Hv]; [by rewrite (si_sv _ _ _ _ _ _ Hs)|]. exists v.
    split; [by apply aget_farr|]. destruct (si_sv_lt _ _ _ _ _ _ _ _ Hs Hv) as [_ Hvn]. split; [done|].
    pose proof (greedy_take_S g sv k v Hv) as Hg. rewrite <- Hss in Hg.
    pose proof (exc_vs g k v ic sv vi bi Hs Hti Hk Hv Hvs Hic) as Hvs'.
    destruct bs as [[[b1 b2] b3] b4]. simpl.
    destruct (decide (addable g ss v)) as [Ha|Ha].
    2:{ exists rows, (b1, b2, b3, b4), ic, sv, vi, bi. splits; auto.
        - eapply si_mono; [|done]. lia.
        - eapply tied_mono; [|done]. lia.
        - intros y Hy. unfold exclusion_elig, exclusion_key. rewrite Hg. unfold exclusion_elig, exclusion_key in Hic.
          rewrite <- Hss in Hic. by apply Hic. }
    rewrite !(rep_tail_get cfg ex rows) by (done || lia). cbn [Rbind].
    assert (rows !! v = Some (adj (ex_rows g) v)) as Hr.
    { rewrite <- Hrows; [|done|by apply (addable_not_seed g)]. apply adj_lookup. lia. }
    set (r := adj (ex_rows g) v) in *.
    apply Rsat_bind. eapply Rsat_mono; [by apply (collect_sat B dg g ss v b0 ex rows r)|].
    intros [[head ne] wr]. cbv zeta. set (X := filter (addable g ss) r). intros (-> & -> & Hhb & Hrep).
    set (rows' := <[v:=X ++ drop (length X) r]> rows) in *.
    assert (length X <= length r) as HXr by apply filter_length.
    assert (length (X ++ drop (length X) r) = length r) as Lr by (rewrite app_length, drop_length; lia).
    set (pre' := take (S k) sv) in *.
    assert (sst cfg (length g) k pre' (b1, b2, b3, b4) ic (mk_sort b1 b2 b3 b4 ic sv vi bi)) as Hsst.
    { exists sv, vi, bi. split; [done|]. unfold pre'. rewrite Nat.add_1_r. split; [eapply si_mono; [|done]; lia|].
      split; [|done]. eapply tied_mono; [|done]. lia. }
    assert (forall y, y < length g -> addable g (ss ++ [v]) y -> exclusion_elig g (take k sv) y /\
         exclusion_key g (take k sv) y = exclusion_key g pre' y + cnt y (concat (adj (ex_rows g) <$> X))) as Hkey.
    { intros y Hy Hc. unfold exclusion_elig, exclusion_key. rewrite Hg, <- Hss.
      pose proof Hc as Hc'. rewrite addable_snoc in Hc' by done. split; [tauto|].
      rewrite !(conflicts_arcs dg) by done. apply arcs_split.
      - apply NoDup_filter, adj_nodup, union_rows_nodup.
      - apply Forall_forall. intros x Hx. apply elem_of_list_filter in Hx as [_ Hx]. rewrite ex_rows_length.
        unfold r in Hx. rewrite (ex_adj dg) in Hx by done. by eapply conflict_lt; [..|apply Hx].
      - apply union_rows_nodup.
      - intros x Hx. rewrite !bool_decide_eq_true. unfold X. rewrite elem_of_list_filter, addable_snoc by done.
        unfold r. rewrite (ex_adj dg) by done.
        assert (x < length g) as Hxn.
        { rewrite <- (ex_rows_length g). unfold adj in Hx. destruct (ex_rows g !! x) eqn:E; [by eapply lookup_lt_Some|by apply elem_of_nil in Hx]. }
        rewrite (ex_adj dg) in Hx by done. destruct Hx as [Hx1 Hx2].
        assert (x <> v) by (intros ->; tauto).
        assert (adj g v <> []) by apply Ha.
        destruct (decide (conflict g v x)); tauto.
      - intros x Hx Hact Hx'. apply elem_of_list_filter in Hx' as [_ Hx']. apply bool_decide_eq_true in Hact.
        rewrite addable_snoc in Hact by done. unfold r in Hx'. rewrite (ex_adj dg) in Hx' by done. tauto. }
    apply Rsat_bind. eapply Rsat_mono.
    + rewrite <- (offs_insert rows v r (X ++ drop (length X) r)) by done. fold rows'.
      apply (decrease_sat_ex B g (ss ++ [v]) b0 _ rows' k pre' (b1, b2, b3, b4) ic _ v (X ++ drop (length X) r) X); [done| | |by eexists| | |exact Hsst|].
      * unfold rows'. by rewrite insert_length.
      * apply list_lookup_insert. lia.
      * intros x Hx. apply elem_of_list_filter in Hx as [Hxa Hx]. unfold r in Hx. rewrite (ex_adj dg) in Hx by done.
        destruct Hx as [_ Hx]. pose proof (conflict_lt _ _ _ _ H Hvn Hx) as Hxn. split; [done|].
        rewrite <- Hrows; [|done|by apply (addable_not_seed g)]. unfold adj, rows'. rewrite list_lookup_insert_ne; [done|]. by destruct Hx.
      * intros y Hy Hyp. rewrite <- Hg in Hy. by eapply greedy_visited.
      * intros y c Hc Hyc. assert (y < length g) as Hy. { rewrite <- (si_ic _ _ _ _ _ _ Hs). by eapply lookup_lt_Some. }
        apply bool_decide_eq_true in Hc. destruct (Hkey y Hy Hc) as [He Hk'].
        rewrite (Hic y Hy He) in Hyc. injection Hyc as <-. lia.
    + intros so' (sv' & vi' & bi' & -> & Hs' & Hti' & Ht). simpl. split; [done|]. split; [unfold dg_blocks; simpl; by rewrite Hhb|].
      split; [done|]. rewrite Nat.add_1_r in Hs', Hti', Ht.
      exists rows', (b1, b2, b3, b4), (dec_ic (fun y => bool_decide (addable g (ss ++ [v]) y)) (concat (adj (ex_rows g) <$> X)) ic), sv', vi', bi'.
      rewrite Ht. splits; auto; [unfold rows'; by rewrite insert_length| |].
      * intros x Hxn Hx. rewrite elem_of_app, elem_of_list_singleton in Hx. rewrite <- Hrows by tauto. unfold adj, rows'.
        rewrite list_lookup_insert_ne; [done|]. intros ->. tauto.
      * intros y Hy Hye. unfold exclusion_elig in Hye. rewrite Hg in Hye. destruct (Hkey y Hy Hye) as [He Hk'].
        rewrite dec_ic_lookup, (Hic y Hy He). simpl. rewrite bool_decide_eq_true_2 by done. f_equal. lia.
  - intros ss ex so (rows & bs & ic & sv & vi & bi & _ & _ & _ & -> & Hs & _ & _ & -> & Hvs & _). exists sv.
    rewrite <- (si_sv _ _ _ _ _ _ Hs), firstn_all in *. split; [|done]. apply vs_full; [|done].
    rewrite (si_sv _ _ _ _ _ _ Hs). by eapply si_perm.
Qed.

(** ** All methods *)

Definition seeds_spec (sm : seed_method) (g : list (list nat)) (ss : list nat) : Prop :=
  match sm with
  | SM_LEXICAL => ss = greedy g [] (seq 0 (length g))
  | SM_INWARDS_ORDER => exists ord, ordered_by (length g) (indegree g) ord /\ ss = greedy g [] ord
  | SM_INWARDS_UPDATING =>
      exists ord, visits (stable_seeds cfg) (length g) (inwards_elig g) (inwards_key g) ord /\ ss = greedy g [] ord
  | SM_EXCLUSION_ORDER =>
      exists ord, ordered_by (length g) (conflicts_from (fun _ => true) g) ord /\ ss = greedy g [] ord
  | SM_EXCLUSION_UPDATING =>
      exists ord, visits (stable_seeds cfg) (length g) (exclusion_elig g) (exclusion_key g) ord /\ ss = greedy g [] ord
  | _ => False
  end.

Definition is_exclusion (sm : seed_method) : Prop := sm = SM_EXCLUSION_ORDER \/ sm = SM_EXCLUSION_UPDATING.
Definition is_nng_method (sm : seed_method) : Prop :=
  sm = SM_LEXICAL \/ sm = SM_INWARDS_ORDER \/ sm = SM_INWARDS_UPDATING \/ is_exclusion sm.

Lemma seeds_spec_greedy sm g ss : seeds_spec sm g ss -> exists ord, ord ≡ₚ seq 0 (length g) /\ ss = greedy g [] ord.
Proof.
  destruct sm; simpl; try done; intros H; [by eexists|..]; destruct H as (ord & H & ->); exists ord; (split; [|done]);
    try apply visits_is_smallest in H; apply H.
Qed.

Lemma seeds_post_mono (TL TL' LK LK' : Prop) (P P' : list nat -> Prop) w r w' :
  (TL -> TL') -> (LK -> LK') -> (forall ss, P ss -> P' ss) ->
  seeds_post cfg TL LK P w r w' -> seeds_post cfg TL' LK' P' w r w'.
Proof.
  intros H1 H2 H3 (L & T & Hok & Her). split; [done|]. split; [done|]. split.
  - intros E. destruct (Hok E) as (ss & b & ? & ? & ? & ?). exists ss, b. splits; auto.
  - intros E. destruct (Her E) as (F & lk & O & HL). split.
    + destruct F as (F1 & F2 & F3). split; [done|]. split; [done|]. tauto.
    + exists lk. split; [done|]. tauto.
Qed.

Lemma Msat_find_seeds B dg g sm cap w : dg_rep cfg dg g -> Forall (@NoDup nat) g -> (N.of_nat (length g) <= pi_max cfg)%N ->
  is_nng_method sm ->
  (is_exclusion sm -> no_fail w \/ (B NullPtr /\ 0 < length g)) ->
  Msat B (find_seeds cfg dg sm (SR cap 0 None)) w
    (seeds_post cfg ((cl_max cfg < N.of_nat (length g))%N \/ (is_exclusion sm /\ too_many_arcs cfg (length g * length g) = true))
       (is_exclusion sm /\ exists v, v < length g /\ adj g v = []) (seeds_spec sm g) w).
Proof.
  intros H Hnd Hpi Hsm HB. unfold find_seeds.
  set (TL := _ \/ _). set (LK := _ /\ _).
  apply Msat_bind. apply (Msat_mono _ _ _ (fun r w' => seeds_post cfg TL LK (seeds_spec sm g) w r w')).
  { destruct sm; try (exfalso; destruct Hsm as [|[|[|[|]]]]; discriminate).
    - eapply Msat_mono; [by apply Msat_lexical|]. intros r w'. apply seeds_post_mono; [by left|done|done].
    - eapply Msat_mono; [by apply Msat_inwards_order|]. intros r w'. apply seeds_post_mono; [by left|done|done].
    - eapply Msat_mono; [by apply Msat_inwards_updating|]. intros r w'. apply seeds_post_mono; [by left|done|done].
    - assert (is_exclusion SM_EXCLUSION_ORDER) as Hx by (by left). eapply Msat_mono; [by apply Msat_exclusion_order; try apply HB|].
      intros r w'. apply seeds_post_mono; [unfold TL; tauto|done|done].
    - assert (is_exclusion SM_EXCLUSION_UPDATING) as Hx by (by right). eapply Msat_mono; [by apply Msat_exclusion_updating; try apply HB|].
      intros r w'. apply seeds_post_mono; [unfold TL; tauto|done|done]. }
  intros [ec sr] w1 Hp. pose proof Hp as (L1 & T1 & Hok & Her). destruct (decide (ec <> ER_OK)) as [Hec|Hec]; [by apply Msat_ret|].
  assert (ec = ER_OK) as -> by (destruct ec; try done; exfalso; by apply Hec). clear Hec Her.
  destruct (Hok eq_refl) as (ss & b & O1 & E1 & Hst & HP). simpl in Hst. clear Hok.
  destruct Hst as (c & Hs & Hf & Hc & Hcap & Hcl).
  destruct (decide (sr_count sr < sr_cap sr /\ 0 < sr_count sr)) as [[Hlt Hpos]|Hno]; [|by apply Msat_ret].
  rewrite Hs. apply Msat_bind, Msat_realloc_arr.
  { specialize (O1 b). simpl in O1. rewrite decide_True in O1 by done. lia. }
  - intros w2 L2 O2 E2 T2 F2. apply Msat_ret. split; [eauto|]. split; [congruence|]. split; [|done]. intros _.
    exists ss, b. splits; auto; [blk|by rewrite E2|]. exists c. auto.
  - intros w2 b' L2 O2 E2 T2. apply Msat_ret. split; [eauto|]. split; [congruence|]. split; [|done]. intros _.
    exists ss, b'. splits; auto; [blk|by rewrite E2|]. eexists. split; [done|]. simpl. rewrite resize_length, Hc.
    splits; auto. by apply filled_resize.
Qed.
End Excl.

(** ** Calls of the seed finder *)

(** The seeds the caller reads from the result. *)
Definition lists_seeds (sr : seed_result) (ss : list nat) : Prop :=
  sr_count sr = length ss /\ forall i s, ss !! i = Some s -> aget (sr_seeds sr) i = Ok s.

Lemma seed_st_lists cfg sr ss b : seed_st cfg sr ss b -> lists_seeds sr ss.
Proof.
  intros (c & E & Hf & Hc & _). split; [done|]. rewrite E. intros i s Hi. apply aget_cells. destruct Hf as [rest ->].
  apply lookup_app_l_Some. by rewrite list_lookup_fmap, Hi.
Qed.

Lemma find_seeds_spec cfg dg g sm cap w sr w' : dg_rep cfg dg g -> Forall (@NoDup nat) g ->
  (N.of_nat (length g) <= pi_max cfg)%N -> g <> [] -> is_nng_method sm ->
  find_seeds cfg dg sm (SR cap 0 None) w = Ok ((ER_OK, sr), w') ->
  exists ss, lists_seeds sr ss /\ seeds_spec cfg sm g ss.
Proof.
  intros H Hnd Hpi Hne Hsm E.
  assert (0 < length g) as Hpos by (destruct g; simpl; [done|lia]).
  pose proof (Msat_find_seeds cfg anyub dg g sm cap w H Hnd Hpi Hsm (fun _ => or_intror (conj I Hpos))) as HM.
  apply (Msat_inv _ _ _ _ _ _ E) in HM as (_ & _ & Hok & _). destruct (Hok eq_refl) as (ss & b & _ & _ & Hst & Hs).
  exists ss. split; [|done]. by eapply seed_st_lists.
Qed.

Lemma find_seeds_independent cfg dg g sm cap w sr w' : dg_rep cfg dg g -> Forall (@NoDup nat) g ->
  (N.of_nat (length g) <= pi_max cfg)%N -> g <> [] -> is_nng_method sm ->
  find_seeds cfg dg sm (SR cap 0 None) w = Ok ((ER_OK, sr), w') ->
  exists ss, lists_seeds sr ss /\ independent_maximal g ss.
Proof.
  intros H Hnd Hpi Hne Hsm E. destruct (find_seeds_spec _ _ _ _ _ _ _ _ H Hnd Hpi Hne Hsm E) as (ss & Hl & Hs).
  exists ss. split; [done|]. destruct (seeds_spec_greedy _ _ _ _ Hs) as (ord & Hp & ->). by apply greedy_independent_maximal.
Qed.

Lemma find_seeds_succeeds cfg dg g sm cap w : dg_rep cfg dg g -> Forall (@NoDup nat) g ->
  (N.of_nat (length g) <= pi_max cfg)%N -> is_nng_method sm -> no_fail w ->
  (N.of_nat (length g) <= cl_max cfg)%N -> (is_exclusion sm -> too_many_arcs cfg (length g * length g) = false) ->
  exists sr w', find_seeds cfg dg sm (SR cap 0 None) w = Ok ((ER_OK, sr), w').
Proof.
  intros H Hnd Hpi Hsm Hnf Hcl Htm.
  pose proof (Msat_find_seeds cfg none dg g sm cap w H Hnd Hpi Hsm (fun _ => or_introl Hnf)) as HM.
  apply Msat_none in HM as ([ec sr] & w' & E & _ & _ & _ & Her). exists sr, w'. rewrite E. do 3 f_equal.
  destruct (decide (ec = ER_OK)) as [->|Hec]; [done|exfalso]. destruct (Her Hec) as ((_ & _ & [[_ F]|[_ F]]) & _); [done|].
  destruct F as [F|[Fx F]]; [simpl in *; lia|]. rewrite Htm in F by done. discriminate.
Qed.
