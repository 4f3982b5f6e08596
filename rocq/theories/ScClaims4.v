(** Sizes of the clusters when types are constrained and no points are added to the
    seeds' groups. *)

From stdpp Require Import prelude list sorting.
From Coq Require Import NArith ZArith.
From Verif Require Import Base World Mem Digraph DigraphRep DigraphDiff SortIdx Float Spi Dist Options Arrays GraphSpec SeedSpec AssignSpec SeedsExcl
  Nng NngGraph NngSize NngAssign NngStage TypeCount TypeRows Batch BatchSpec BatchProof OptionsProof NngClustering
  ScSpec ScProof ClusSpec ScFacts Approx ScClaims ScClaims2 ScClaims3.

Lemma filter_ne_length (v : nat) l : NoDup l -> v ∈ l -> S (length (filter (fun x => x <> v) l)) = length l.
Proof.
  induction 1 as [|y l Hy Hl IH]; intros Hv; [by apply elem_of_nil in Hv|]. rewrite filter_cons. apply elem_of_cons in Hv as [<-|Hv].
  - rewrite decide_False by tauto. simpl. f_equal. apply Permutation_length. clear IH. induction l as [|z l IH]; [done|]. rewrite filter_cons, decide_True by (intros ->; apply Hy; left). apply perm_skip, IH; [intros ?; apply Hy; by right|by inversion_clear Hl].
  - rewrite decide_True by (intros ->; done). simpl. by rewrite IH.
Qed.

(** A row contains the point itself if its type is constrained. *)
Lemma typed_adj_own n tl tcons G rad st nt size v r t : nt <= length tcons -> tsum nt tcons <= size -> v < n -> typed_adj n tl tcons G rad st nt size v r ->
  tl !! v = Some t -> t < nt -> 0 < tcon tcons t -> S (length r) = size.
Proof.
  intros Hnt Hle Hv (cs & e & Hcs & He & ->) Htv Ht Hpos.
  destruct (type_rows_facts n tl tcons G rad (used_types tcons nt) v cs) as (F1 & F2 & F3); auto.
  { apply used_types_NoDup. } { apply Forall_forall. intros u Hu%elem_of_used_types. tauto. }
  rewrite used_sum in F2 by done.
  assert (v ∈ concat cs) as Hin.
  { assert (t ∈ used_types tcons nt) as Hu by (by apply elem_of_used_types). apply elem_of_list_lookup in Hu as [j Hj].
    destruct (Forall2_lookup_l _ _ _ _ _ Hcs Hj) as (c & Hcj & Hrow). destruct (type_row_facts n tl tcons G rad v t c Hpos Hrow) as (_ & _ & _ & R4).
    apply elem_of_concat. exists c. split; [apply R4; by apply elem_of_group|]. by eapply elem_of_list_lookup_2. }
  assert (NoDup (concat cs ++ e) /\ length e = size - tsum nt tcons) as (E1 & E2).
  { destruct (decide (tsum nt tcons < size)) as [Hlt|Hlt].
    - destruct He as (call & Hcall & _ & ->). pose proof (nst_len _ _ _ _ _ Hcall) as Hl.
      destruct (extra_row_facts (size - tsum nt tcons) cs call) as (X1 & X2 & X3); auto; [|lia].
      eapply submseteq_nodup; [apply Hcall|apply NoDup_seq].
    - subst e. rewrite app_nil_r. split; [done|]. simpl. lia. }
  rewrite arrange_length, filter_ne_length; [rewrite app_length; lia|done|]. apply elem_of_app. by left.
Qed.

Lemma concat_sum (f : nat -> list nat) l : length (concat (f <$> l)) = sum_list ((fun t => length (f t)) <$> l).
Proof. induction l as [|t l IH]; [done|]. csimpl. rewrite app_length, IH. done. Qed.
Lemma tsum_seq tcons m : m <= length tcons -> tsum m tcons = sum_list (tcon tcons <$> seq 0 m).
Proof.
  intros Hm. unfold tsum. f_equal. apply list_eq. intros i. rewrite list_lookup_fmap. destruct (decide (i < m)) as [Hi|Hi].
  - rewrite lookup_take, lookup_seq_lt by lia. simpl. unfold tcon. destruct (lookup_lt_is_Some_2 tcons i) as [x ->]; [lia|done].
  - rewrite lookup_take_ge, lookup_seq_ge by lia. done.
Qed.
Lemma sums_agree (h k : nat -> nat) l : (forall u, u ∈ l -> h u <= k u) -> sum_list (k <$> l) <= sum_list (h <$> l) -> forall u, u ∈ l -> k u = h u.
Proof.
  induction l as [|t l IH]; intros Hle Hs u Hu; [by apply elem_of_nil in Hu|]. csimpl in *.
  assert (sum_list (h <$> l) <= sum_list (k <$> l)) as Hm.
  { assert (forall u, u ∈ l -> h u <= k u) as Hl by (intros v Hv; apply Hle; by right). clear -Hl. induction l as [|v l IH]; [done|]. csimpl. pose proof (Hl v ltac:(left)). specialize (IH ltac:(intros x Hx; apply Hl; by right)). lia. }
  pose proof (Hle t ltac:(left)) as Ht. apply elem_of_cons in Hu as [->|Hu]; [lia|]. apply IH; auto; [|lia]. intros v Hv. apply Hle. by right.
Qed.

Section Run.
Context (cfg : config) (P : provider) (V : pview P) (ds : p_ds P) (n : nat) (G : geometry) (D : nat -> nat -> double) (o : options) (c : clustering).
Hypothesis (Hc : call_ok cfg P V ds n G D o c).
Context (w w' : world) (c' : clustering).
Hypothesis (Hrun : sc_clustering cfg P ds (Some o) (Some c) w = Ok ((ER_OK, Some c'), w')).

(** At most one point more than asked for. *)
Lemma claim_exact_types i : 2 <= o_num_types o -> o_pum o = UM_IGNORE -> o_sum o = UM_IGNORE -> i < c_k c' ->
  o_size o <= length (cluster c' i) <= S (o_size o) /\
  ((forall t, t < o_num_types o -> 0 < tcon (tcons_of o) t) -> length (cluster c' i) = o_size o).
Proof.
  intros Ht H1 H2 Hi. assert (o_seed o <> SM_BATCHES) as Hb.
  { intros Hb. destruct (run_batches _ _ _ _ _ _ _ _ _ Hc w w' c' Hrun Hb) as (Hv & _). destruct (ov_batches _ _ Hv Hb). lia. }
  destruct (run_plain _ _ _ _ _ _ _ _ _ Hc w w' c' Hrun Hb) as (Hv & Hs & Hn & L & m & g & ss & Hh & Hm & Hr). clear Hrun. pose proof Hh as [_ Hk]. rewrite Hk in Hi.
  pose proof (res_len _ _ _ _ _ _ _ _ _ Hr) as Hl.
  rewrite (holds_cluster cfg (co_cfg _ _ _ _ _ _ _ _ _ Hc) c' L m); auto; [|by rewrite Hl|by eapply res_lt].
  destruct (res_seed_of _ _ _ _ _ _ _ _ _ Hr i Hi) as [s Hsi]. pose proof (elem_of_list_lookup_2 _ _ _ Hsi) as Hin.
  assert (length (lab_members L i) = length (closed g s)) as ->.
  { destruct (res_closed _ _ _ _ _ _ _ _ _ Hv Hs Hr s Hin) as (Hnd & Hlt & _). apply Permutation_length. apply NoDup_Permutation; [apply NoDup_filter, NoDup_seq|done|].
    intros x. unfold lab_members. rewrite elem_of_list_filter. split.
    - intros [Hx Hxs]. apply elem_of_seq in Hxs. rewrite Hl in Hxs. rewrite (res_ignore _ _ _ _ _ _ _ _ _ Hr H1 H2), seed_labels_lab in Hx by lia.
      apply seed_label_Some in Hx as (s' & Hs' & Hx). by simplify_eq.
    - intros Hx. split; [by eapply res_group|]. rewrite Forall_forall in Hlt. apply elem_of_seq. rewrite Hl. specialize (Hlt x Hx). lia. }
  pose proof (res_seed _ _ _ _ _ _ _ _ _ Hv Hs Hr s Hin) as Hsd. pose proof (sr_graph _ _ _ _ _ _ _ _ _ Hr) as Hg. pose proof (ov_size _ _ Hv) as Hsz.
  destruct (nng_graph_row o n G Hv Hs g s Hg Hsd) as (_ & _ & Hlen). unfold closed. simpl. split; [lia|]. intros Hpos.
  unfold nng_graph in Hg. rewrite decide_False in Hg by lia. destruct Hg as [Hg Hsum]. destruct Hsd as [Hp Hok]. rewrite decide_False in Hok by lia.
  assert (2 <= o_num_types o) as Ht' by done. pose proof (types_ok_options o n Hv Hs Ht') as Hok2. destruct (Hok2) as (_ & Hnt & _).
  pose proof (primary_lt o n Hv Hs s Hp) as Hsn. destruct (types_label n (o_num_types o) (tcons_of o) (tlabels_of o) s) as (t & Hts & Htn); [exact Hok2|done|].
  exact (typed_adj_own _ _ _ _ _ _ _ _ _ _ t Hnt Hsum Hsn (tg_row _ _ _ _ _ _ _ _ _ _ Hg s Hp Hok) Hts Htn (Hpos t Htn)).
Qed.

(** The numbers of points of each type, if the constraints add up to the size. *)
Lemma claim_type_numbers i : 2 <= o_num_types o -> o_pum o = UM_IGNORE -> o_sum o = UM_IGNORE -> i < c_k c' ->
  (forall t, t < o_num_types o -> 0 < tcon (tcons_of o) t) -> tsum (o_num_types o) (tcons_of o) = o_size o ->
  forall t, t < o_num_types o -> length (of_type (tlabels_of o) t (cluster c' i)) = tcon (tcons_of o) t.
Proof.
  intros Ht H1 H2 Hi Hpos Hsum t Htn. destruct (claim_exact_types i Ht H1 H2 Hi) as [_ Hlen]. specialize (Hlen Hpos).
  assert (forall u, u < o_num_types o -> tcon (tcons_of o) u <= length (of_type (tlabels_of o) u (cluster c' i))) as Hge.
  { intros u Hu. exact (proj1 (claim_types _ _ _ _ _ _ _ _ _ Hc _ _ _ Hrun i u Ht Hi Hu)). }
  assert (o_num_types o <= length (tcons_of o) /\ Forall (fun x => exists t, tlabels_of o !! x = Some t /\ t < o_num_types o) (cluster c' i)) as [Hnt Hlab].
  { assert (o_seed o <> SM_BATCHES) as Hb.
    { intros Hb. destruct (run_batches _ _ _ _ _ _ _ _ _ Hc w w' c' Hrun Hb) as (Hv & _). destruct (ov_batches _ _ Hv Hb). lia. }
    destruct (run_plain _ _ _ _ _ _ _ _ _ Hc w w' c' Hrun Hb) as (Hv & Hs & Hn & _). clear Hrun Hge. pose proof (types_ok_options o n Hv Hs) as Hty. split; [destruct Hty as (_ & ? & _); [lia|done]|].
    apply Forall_forall. intros x Hx. eapply types_label; [apply Hty; lia|]. unfold cluster in Hx. apply elem_of_list_filter in Hx as [_ Hx%elem_of_seq]. lia. }
  clear Hrun. pose proof (of_type_total _ _ _ Hlab) as Htot. set (f := fun t => of_type (tlabels_of o) t (cluster c' i)) in *.
  rewrite concat_sum in Htot. apply (sums_agree (tcon (tcons_of o)) (fun u => length (f u)) (seq 0 (o_num_types o))).
  - intros u Hu%elem_of_seq. apply Hge. lia.
  - rewrite Htot, <- tsum_seq by done. lia.
  - apply elem_of_seq. lia.
Qed.
End Run.
