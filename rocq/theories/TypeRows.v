(** Rows of the nearest neighbour graph for type constraints. *)

From stdpp Require Import prelude list sorting.
From Coq Require Import NArith ZArith.
From Verif Require Import Base World Mem Digraph DigraphRep DigraphOps DigraphUnion DigraphDiff Float Spi Options Arrays GraphSpec AssignSpec Seeds SeedsProof SeedsExcl SortIdx Nng NngGraph NngSize TypeCount.

Lemma nearest_perm G S S' k v c : S ≡ₚ S' -> nearest G S k v c -> nearest G S' k v c.
Proof.
  intros HS [H1 H2 H3 H4]. constructor; auto.
  - by rewrite <- HS.
  - intros rest Hr. apply H4. by rewrite HS.
Qed.

Lemma feasible_perm G S S' k rad v : S ≡ₚ S' -> feasible G S k rad v <-> feasible G S' k rad v.
Proof. intros HS. unfold feasible. by rewrite HS. Qed.

(** The constraint of type [t]. *)
Definition tcon (tcons : list nat) (t : nat) : nat := default 0 (tcons !! t).

(** Types below [m] with a constraint. *)
Definition used_types (tcons : list nat) (m : nat) : list nat := filter (fun t => 0 < tcon tcons t) (seq 0 m).

Lemma used_types_snoc tcons m : used_types tcons (S m) = used_types tcons m ++ (if decide (0 < tcon tcons m) then [m] else []).
Proof. unfold used_types. rewrite seq_S, filter_app, (filter_cons _ (0 + m) []), filter_nil. done. Qed.

Lemma used_types_NoDup tcons m : NoDup (used_types tcons m).
Proof. apply NoDup_filter, NoDup_seq. Qed.

Lemma elem_of_used_types tcons m t : t ∈ used_types tcons m <-> t < m /\ 0 < tcon tcons t.
Proof. unfold used_types. rewrite elem_of_list_filter, elem_of_seq. lia. Qed.

Lemma used_types_length tcons m : length (used_types tcons m) <= m.
Proof. unfold used_types. etransitivity; [apply filter_length|]. by rewrite seq_length. Qed.

Lemma used_sum tcons m : m <= length tcons -> sum_list (tcon tcons <$> used_types tcons m) = tsum m tcons.
Proof.
  unfold tsum. induction m as [|m IH]; intros Hm; [done|]. rewrite used_types_snoc, fmap_app, sum_list_with_app, IH by lia.
  destruct (lookup_lt_is_Some_2 tcons m) as [c Hc]; [lia|]. rewrite (sum_take_S _ _ _ Hc).
  assert (tcon tcons m = c) as E by (unfold tcon; by rewrite Hc). rewrite E. destruct (decide (0 < c)); csimpl; rewrite ?E; unfold id; lia.
Qed.

Section Rows.
Context (n : nat) (tl tcons : list nat) (G : geometry) (rad : option double).
Notation grp := (group tl n).
Notation tcon := (tcon tcons).
Notation feasible := (feasible G).

(** Enough points of every type in [ts] within the radius. *)
Definition type_feasible (ts : list nat) (v : nat) : Prop := Forall (fun t => feasible (grp t) (tcon t) rad v) ts.
Global Instance type_feasible_dec ts v : Decision (type_feasible ts v) := Forall_dec _ _.

(** [c]: the nearest points of type [t] to [v], with [v] itself among them if it
    is of this type. *)
Definition type_row (v t : nat) (c : list nat) : Prop :=
  exists c0, nearest G (grp t) (tcon t) v c0 /\ Forall (fun x => within_opt G rad v x = true) c0 /\
    c = if decide (v ∈ grp t) then self_row v c0 else c0.

Definition extra_row (k : nat) (cs : list (list nat)) (call : list nat) : list nat :=
  take k (filter (fun x => x ∉ concat cs) call).

Lemma elem_of_group t x : x ∈ grp t <-> x < n /\ tl !! x = Some t.
Proof. unfold group, of_type. rewrite elem_of_list_filter, elem_of_seq. intuition lia. Qed.

Lemma group_NoDup t : NoDup (grp t).
Proof. apply NoDup_filter, NoDup_seq. Qed.

Lemma type_row_facts v t c : 0 < tcon t -> type_row v t c ->
  NoDup c /\ length c = tcon t /\ Forall (fun x => x ∈ grp t) c /\ (v ∈ grp t -> v ∈ c).
Proof.
  intros Ht (c0 & Hc & _ & ->). destruct (nearest_self_nodup G (grp t) (tcon t) v c0) as [Hn1 Hn2]; [apply group_NoDup|done|].
  pose proof (nst_len _ _ _ _ _ Hc) as Hl.
  assert (forall x, x ∈ c0 -> x ∈ grp t) as Hsub. { intros x Hx. eapply elem_of_submseteq; [exact Hx|apply Hc]. }
  destruct (decide (v ∈ grp t)) as [Hv|Hv].
  - rewrite self_row_length. splits; auto.
    + apply Forall_forall. intros x Hx. unfold self_row in Hx. destruct (decide (c0 = [] \/ v ∈ c0)); [auto|].
      apply elem_of_list_lookup in Hx as [j Hj]. apply list_lookup_insert_Some in Hj as [(_ & <- & _)|[_ Hj]]; [done|].
      apply Hsub. by eapply elem_of_list_lookup_2.
    + intros _. apply self_row_in. intros ->. simpl in Hl. lia.
  - splits; auto; [|tauto]. by apply Forall_forall.
Qed.

Lemma type_rows_facts ts v cs : NoDup ts -> Forall (fun t => 0 < tcon t) ts -> Forall2 (type_row v) ts cs ->
  NoDup (concat cs) /\ length (concat cs) = sum_list (tcon <$> ts) /\
  Forall (fun x => exists t, t ∈ ts /\ x ∈ grp t) (concat cs).
Proof.
  intros Hnd Hpos Hf. induction Hf as [|t c ts cs Hc Hf IH]; [simpl; splits; auto; constructor|].
  inversion_clear Hnd as [|? ? Hnt Hnd']. inversion_clear Hpos as [|? ? Ht Hpos'].
  destruct (IH Hnd' Hpos') as (I1 & I2 & I3). destruct (type_row_facts v t c Ht Hc) as (R1 & R2 & R3 & _). csimpl. splits.
  - apply NoDup_app. splits; auto. intros x Hx Hx'. rewrite Forall_forall in R3, I3. apply R3 in Hx. destruct (I3 _ Hx') as (t' & Ht' & Hxt').
    apply elem_of_group in Hx as [_ Hx]. apply elem_of_group in Hxt' as [_ Hxt']. assert (t = t') as <- by congruence. done.
  - rewrite app_length. unfold id in *. lia.
  - apply Forall_app. split.
    + eapply Forall_impl; [exact R3|]. simpl. intros x Hx. exists t. split; [left|done].
    + eapply Forall_impl; [exact I3|]. simpl. intros x (t' & Ht' & Hx). exists t'. split; [by right|done].
Qed.

Lemma filter_notin_length (l k : list nat) : NoDup l -> length l <= length (filter (fun x => x ∉ k) l) + length k.
Proof.
  intros Hl. assert (length l = length (filter (fun x => x ∉ k) l) + length (filter (fun x => x ∈ k) l)) as ->.
  { induction l as [|x l IH]; [done|]. inversion_clear Hl. rewrite !filter_cons.
    destruct (decide (x ∈ k)) as [H1|H1], (decide (x ∉ k)) as [H2|H2]; try tauto; simpl; rewrite IH by done; lia. }
  apply Nat.add_le_mono_l. apply submseteq_length, NoDup_submseteq; [by apply NoDup_filter|]. intros x [? _]%elem_of_list_filter. done.
Qed.

Lemma in_take (k x : nat) (l : list nat) : x ∈ take k l -> x ∈ l.
Proof. intros (i & Hi & _)%elem_of_take. by eapply elem_of_list_lookup_2. Qed.

Lemma extra_row_facts k cs call : NoDup call -> length (concat cs) + k <= length call -> NoDup (concat cs) ->
  NoDup (concat cs ++ extra_row k cs call) /\ length (extra_row k cs call) = k /\ Forall (fun x => x ∈ call) (extra_row k cs call).
Proof.
  intros Hc Hl Hn. unfold extra_row. splits.
  - apply NoDup_app. splits; auto.
    + intros x Hx Hx2. apply (in_take k) in Hx2. apply elem_of_list_filter in Hx2. tauto.
    + eapply submseteq_nodup; [apply sublist_submseteq, sublist_take|]. by apply NoDup_filter.
  - rewrite take_length. pose proof (filter_notin_length call (concat cs) Hc). lia.
  - apply Forall_forall. intros x Hx. apply (in_take k) in Hx. apply elem_of_list_filter in Hx. tauto.
Qed.

(** A row of the graph. [st]: it is sorted by index. *)
Definition typed_adj (st : bool) (nt size v : nat) (r : list nat) : Prop :=
  exists cs e, Forall2 (type_row v) (used_types tcons nt) cs /\
    (if decide (tsum nt tcons < size)
     then exists call, nearest G (seq 0 n) size v call /\ Forall (fun x => within_opt G rad v x = true) call /\
            e = extra_row (size - tsum nt tcons) cs call
     else e = []) /\
    r = arrange st (filter (fun x => x <> v) (concat cs ++ e)).

(** Queries that get arcs. *)
Definition typed_ok (nt size : nat) (v : nat) : Prop :=
  type_feasible (used_types tcons nt) v /\ (tsum nt tcons < size -> feasible (seq 0 n) size rad v).

Record type_graph (st : bool) (nt size : nat) (Q : list nat) (g : list (list nat)) : Prop := {
  tg_len : length g = n;
  tg_row : forall v, v ∈ Q -> typed_ok nt size v -> typed_adj st nt size v (adj g v);
  tg_none : forall v, ~ (v ∈ Q /\ typed_ok nt size v) -> adj g v = []
}.

Lemma type_graph_arrange st nt size Q g : type_graph false nt size Q g -> type_graph st nt size Q (arrange_rows st g).
Proof.
  intros [H1 H2 H3]. constructor.
  - by rewrite arrange_rows_length.
  - intros v Hv Hok. destruct (H2 v Hv Hok) as (cs & e & Hcs & He & E). exists cs, e. split; [done|]. split; [done|].
    rewrite arrange_rows_adj, E. done.
  - intros v Hv. by rewrite arrange_rows_adj, H3, arrange_nil.
Qed.

(** What matters about a row: [x0] are the points of the closed neighbourhood
    other than [v]'s possible second listing. *)
Lemma typed_adj_facts st nt size v r : nt <= length tcons -> tsum nt tcons <= size -> v < n -> typed_adj st nt size v r ->
  NoDup (v :: r) /\ Forall (fun x => x < n) r /\ size - 1 <= length r <= size /\
  (forall t, t < nt -> tcon t <= length (of_type tl t (v :: r))).
Proof.
  intros Hnt Hle Hv (cs & e & Hcs & He & ->).
  destruct (type_rows_facts (used_types tcons nt) v cs) as (F1 & F2 & F3); auto.
  { apply used_types_NoDup. } { apply Forall_forall. intros t Ht%elem_of_used_types. tauto. }
  rewrite used_sum in F2 by done.
  assert (NoDup (concat cs ++ e) /\ length e = size - tsum nt tcons /\ Forall (fun x => x < n) e) as (E1 & E2 & E3).
  { destruct (decide (tsum nt tcons < size)) as [Hlt|Hlt].
    - destruct He as (call & Hcall & _ & ->). pose proof (nst_len _ _ _ _ _ Hcall) as Hl.
      destruct (extra_row_facts (size - tsum nt tcons) cs call) as (X1 & X2 & X3); auto; [|lia|].
      + eapply submseteq_nodup; [apply Hcall|apply NoDup_seq].
      + splits; auto. eapply Forall_impl; [exact X3|]. simpl. intros x Hx. eapply elem_of_submseteq in Hx; [|apply Hcall]. apply elem_of_seq in Hx. lia.
    - subst e. rewrite app_nil_r. splits; auto. simpl. lia. }
  set (l := concat cs ++ e) in *. assert (length l = size) as Hll by (unfold l; rewrite app_length; lia).
  assert (v ∉ filter (fun x => x <> v) l) as Hnv by (rewrite elem_of_list_filter; tauto).
  rewrite arrange_length, NoDup_cons, elem_of_arrange, arrange_NoDup, arrange_perm.
  assert (forall t, of_type tl t (v :: arrange st (filter (fun x => x <> v) l)) ≡ₚ of_type tl t (v :: filter (fun x => x <> v) l)) as Hty.
  { intros t. unfold of_type. by rewrite arrange_perm. }
  splits.
  - done.
  - by apply NoDup_filter.
  - apply Forall_forall. intros x [_ Hx]%elem_of_list_filter. unfold l in Hx. apply elem_of_app in Hx as [Hx|Hx]; rewrite Forall_forall in E3, F3; [|auto].
    destruct (F3 _ Hx) as (t & _ & Ht%elem_of_group). tauto.
  - pose proof (filter_notin_length l [v] E1) as H. simpl in H.
    assert (filter (fun x => x ∉ [v]) l = filter (fun x => x <> v) l) as Heq by (apply list_filter_iff; intros x; by rewrite elem_of_list_singleton).
    rewrite Heq in H. lia.
  - pose proof (filter_length (fun x => x <> v) l). lia.
  - intros t Ht. rewrite Hty. destruct (decide (0 < tcon t)) as [Htc|Htc]; [|lia].
    assert (t ∈ used_types tcons nt) as Hu by (by apply elem_of_used_types). apply elem_of_list_lookup in Hu as [j Hj].
    destruct (Forall2_lookup_l _ _ _ _ _ Hcs Hj) as (c & Hcj & Hrow). destruct (type_row_facts v t c Htc Hrow) as (R1 & R2 & R3 & R4).
    rewrite <- R2. apply submseteq_length, NoDup_submseteq; [done|]. intros x Hx.
    pose proof Hx as Hxg. rewrite Forall_forall in R3. apply R3 in Hxg. apply elem_of_group in Hxg as [_ Hxt]. unfold of_type.
    apply elem_of_list_filter. split; [done|]. destruct (decide (x = v)) as [->|Hne]; [left|right]. apply elem_of_list_filter. split; [done|].
    unfold l. apply elem_of_app. left. apply elem_of_concat. exists c. split; [done|]. by eapply elem_of_list_lookup_2.
Qed.
End Rows.
