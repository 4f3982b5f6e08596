(** Which numbers clusters get when clusterings are refined. *)

From stdpp Require Import prelude list sorting.
From Coq Require Import NArith ZArith.
From Verif Require Import Base World Mem Digraph Float Spi Dist Options NngClustering Hier ClusSpec ScSpec ScProof ScFacts ScClaims DistProof
  Example1 FailClaims HierSpec HierFind HierDiv HierRun HierTop HierClaims HierClaims2 BatchProof OptionsProof Pipe PipeHier DigraphDiff CheckProof.

(** ** Positions in joined lists *)

Lemma concat_at {A} (rs : list (list A)) a d : concat rs !! a = Some d -> exists p q r, rs !! p = Some r /\ r !! q = Some d /\ a = length (concat (take p rs)) + q.
Proof.
  revert a. induction rs as [|r rs IH]; intros a Ha; [done|]. simpl in Ha. apply lookup_app_Some in Ha as [Ha|[Hl Ha]].
  - exists 0, a, r. done.
  - destruct (IH _ Ha) as (p & q & r' & H1 & H2 & H3). exists (S p), q, r'. split; [done|]. split; [done|]. simpl. rewrite app_length. lia.
Qed.

Lemma concat_before {A} (rs : list (list A)) p p' q r : rs !! p = Some r -> q < length r -> p < p' -> length (concat (take p rs)) + q < length (concat (take p' rs)).
Proof.
  revert p p'. induction rs as [|s rs IH]; intros p p' Hr Hq Hp; [done|]. destruct p' as [|p']; [lia|]. destruct p as [|p]; simpl in *.
  - injection Hr as ->. rewrite app_length. lia.
  - rewrite !app_length. specialize (IH p p' Hr Hq ltac:(lia)). lia.
Qed.

Section Numbered.
Context (cfg : config) (P : provider) (V : pview P) (ds : p_ds P) (n : nat) (G : geometry) (D : dist_fun)
  (qs : world -> list (nat * double) -> list (nat * double)) (log2cap : nat -> nat -> nat) (k : nat) (batch : bool) (c : clustering).
Hypothesis (HC : hier_call cfg P V ds n G D qs k c) (Hq : sorts qs) (Hk0 : c_k c <> 0).
Notation run := (hierarchical_clustering cfg P qs log2cap ds k batch (Some c)).

Lemma starts_at p ms : starts_of c !! p = Some ms -> p < c_k c /\ ms = rev (cluster c (c_k c - 1 - p)).
Proof.
  unfold starts_of. rewrite decide_False by done. intros H. apply list_lookup_fmap_Some in H as (j & Hj & ->).
  pose proof (lookup_lt_Some _ _ _ Hj) as Hp. rewrite rev_length, seq_length in Hp. split; [done|].
  rewrite rev_alt in Hj. change (rev_append (seq 0 (c_k c)) []) with (reverse (seq 0 (c_k c))) in Hj. apply reverse_lookup_Some in Hj as [Hj _].
  rewrite seq_length in Hj. apply lookup_seq in Hj as [Hj _]. do 2 f_equal. lia.
Qed.

Lemma starts_in p ms x i : starts_of c !! p = Some ms -> x ∈ ms -> x ∈ cluster c i -> p < c_k c /\ p = c_k c - 1 - i.
Proof.
  intros H Hx Hi. destruct (starts_at _ _ H) as [Hp ->]. rewrite <- Permutation_rev in Hx. pose proof (cluster_unique c _ _ _ Hx Hi). lia.
Qed.

(** The points of a cluster with a larger number get smaller numbers. *)
Lemma numbered_order w c' w' : few_duplicates n D (2 * k) -> run w = Ok ((ER_OK, Some c'), w') ->
  forall i j x y, i < j -> j < c_k c -> x ∈ cluster c i -> y ∈ cluster c j ->
  exists a b, label_of c' x = Some (Z.of_nat a) /\ label_of c' y = Some (Z.of_nat b) /\ b < a /\ a < c_k c'.
Proof.
  intros HF E i j x y Hij Hj Hx Hy. destruct (hier_procedure _ _ _ _ _ _ _ _ _ _ _ _ HC Hq _ _ _ E) as (news & L & F & Cl & A).
  pose proof (starts_fine c) as [N1 N2]. pose proof (hc_n _ _ _ _ _ _ _ _ _ _ HC) as En. rewrite En in N2. pose proof (hc_size _ _ _ _ _ _ _ _ _ _ HC) as Hk.
  pose proof (start_cells_length _ _ _ _ _ _ _ _ _ _ HC) as HL.
  set (nb := if batch then k else 1) in *. assert (0 < nb) as Hnb by (unfold nb; destruct batch; lia).
  pose proof (forest_cover n G D k nb _ _ ltac:(lia) Hnb (hc_sane _ _ _ _ _ _ _ _ _ _ HC) HF N1 N2 F) as Hcov. destruct F as (rs & F & ->).
  assert (forall l z, l < c_k c -> z ∈ cluster c l -> exists a q r, label_of c' z = Some (Z.of_nat a) /\ a < c_k c' /\ rs !! (c_k c - 1 - l) = Some r /\ q < length r /\ a = length (concat (take (c_k c - 1 - l) rs)) + q) as H.
  { intros l z Hl Hz. pose proof Hz as [_ Hzn%elem_of_seq]%elem_of_list_filter. destruct (A z ltac:(lia)) as [[Hn _]|(a & d & Hd & Hzd & _ & El)].
    - exfalso. apply Hn. rewrite Hcov. apply elem_of_concat. exists (rev (cluster c l)). split; [by rewrite <- Permutation_rev|].
      unfold starts_of. rewrite decide_False by done. apply elem_of_list_fmap. exists l. split; [done|]. rewrite <- Permutation_rev. apply elem_of_seq. lia.
    - pose proof (lookup_lt_Some _ _ _ Hd) as Hlt. destruct (concat_at _ _ _ Hd) as (p & q & r & Hr & Hqr & ->).
      destruct (Forall2_lookup_r _ _ _ _ _ F Hr) as (ms & Hms & Ht). pose proof (elem_of_list_lookup_2 _ _ _ Hms) as Hin. rewrite Forall_forall in N1.
      destruct (tree_sub k nb G D ms r ltac:(lia) Hnb Ht (N1 _ Hin) d ltac:(by eapply elem_of_list_lookup_2)) as (_ & _ & Hsub).
      destruct (starts_in _ _ z l Hms (Hsub _ Hzd) Hz) as [_ ->]. eexists _, q, r. split; [unfold label_of; by rewrite El|]. split; [lia|]. split; [done|]. split; [by eapply lookup_lt_Some|done]. }
  destruct (H i x ltac:(lia) Hx) as (a & q & r & Ha & Hak & Hr & Hqr & ->). destruct (H j y Hj Hy) as (b & q' & r' & Hb & _ & Hr' & Hqr' & ->).
  eexists _, _. split; [exact Ha|]. split; [exact Hb|]. split; [|done].
  pose proof (concat_before rs (c_k c - 1 - j) (c_k c - 1 - i) q' r' Hr' Hqr' ltac:(lia)). lia.
Qed.

(** Clusters that are not divided are numbered from the last to the first. *)
Lemma numbered_small w c' w' : (forall i, i < c_k c -> 0 < length (cluster c i) < 2 * k) -> run w = Ok ((ER_OK, Some c'), w') ->
  c_k c' = c_k c /\ (forall i x, i < c_k c -> x ∈ cluster c i -> label_of c' x = Some (Z.of_nat (c_k c - 1 - i))) /\
  (forall x, x < n -> unlabelled cfg c x -> unlabelled cfg c' x).
Proof.
  intros Hs E. destruct (hier_procedure _ _ _ _ _ _ _ _ _ _ _ _ HC Hq _ _ _ E) as (news & L & F & Cl & A).
  pose proof (hc_n _ _ _ _ _ _ _ _ _ _ HC) as En. pose proof (start_cells_length _ _ _ _ _ _ _ _ _ _ HC) as HL.
  assert (news = starts_of c) as ->.
  { assert (Forall (fun ms => 0 < length ms < 2 * k) (starts_of c)) as Hsm.
    { apply Forall_forall. intros ms Hms. apply elem_of_list_lookup in Hms as [p Hp]. destruct (starts_at _ _ Hp) as [Hpk ->]. rewrite rev_length. apply Hs. lia. }
    destruct F as (rs & F & ->). clear -F Hsm. induction F as [|ms r starts rs Ht _ IH]; [done|]. apply Forall_cons in Hsm as [Hm Hsm]. simpl. rewrite (IH Hsm).
    inversion Ht as [|? ? ?|? ? ? ? ? ? ? Hl]; subst; [simpl in Hm; lia|done|lia]. }
  assert (c_k c' = c_k c) as Ek. { rewrite <- L. unfold starts_of. rewrite decide_False by done. by rewrite fmap_length, rev_length, seq_length. }
  split; [done|]. split.
  - intros i x Hi Hx. pose proof Hx as [_ Hxn%elem_of_seq]%elem_of_list_filter. destruct (A x ltac:(lia)) as [[Hn _]|(a & d & Hd & Hxd & _ & El)].
    + exfalso. apply Hn, elem_of_concat. exists (rev (cluster c i)). split; [by rewrite <- Permutation_rev|].
      unfold starts_of. rewrite decide_False by done. apply elem_of_list_fmap. exists i. split; [done|]. rewrite <- Permutation_rev. apply elem_of_seq. lia.
    + destruct (starts_in _ _ x i Hd Hxd Hx) as [_ ->]. unfold label_of. by rewrite El.
  - intros x Hx Hu. destruct (A x ltac:(lia)) as [[_ El]|(a & d & Hd & Hxd & _ & _)].
    + unfold unlabelled, label_of in *. rewrite El. destruct (hc_labels _ _ _ _ _ _ _ _ _ _ HC) as [?|_]; [done|]. unfold start_cells, cells in *. destruct (c_label c); [done|]. done.
    + exfalso. destruct (starts_at _ _ Hd) as [Ha ->]. rewrite <- Permutation_rev in Hxd. apply elem_of_list_filter in Hxd as [Hxd _]. unfold unlabelled in Hu. rewrite Hu in Hxd. injection Hxd as Hna.
      by apply (na_not_label cfg (hc_cfg _ _ _ _ _ _ _ _ _ _ HC) (c_k c - 1 - a) (c_k c) (initialized_k _ _ (hc_clu _ _ _ _ _ _ _ _ _ _ HC)) ltac:(lia)).
Qed.
End Numbered.

(** Two more calls give the same labels again. *)
Lemma numbered_twice cfg P V ds n G D qs log2cap k batch c : hier_call cfg P V ds n G D qs k c -> few_duplicates n D (2 * k) ->
  forall w1 w1' c1 qs2 log2 batch2 w2 w2' c2 qs3 log3 batch3 w3 w3' c3, c_k c1 <> 0 ->
  (forall w l, qs2 w l ≡ₚ l) -> sorts qs2 -> (forall w l, qs3 w l ≡ₚ l) -> sorts qs3 ->
  hierarchical_clustering cfg P qs log2cap ds k batch (Some c) w1 = Ok ((ER_OK, Some c1), w1') ->
  hierarchical_clustering cfg P qs2 log2 ds k batch2 (Some c1) w2 = Ok ((ER_OK, Some c2), w2') ->
  hierarchical_clustering cfg P qs3 log3 ds k batch3 (Some c2) w3 = Ok ((ER_OK, Some c3), w3') ->
  c_k c3 = c_k c1 /\ forall x, x < n -> label_of c3 x = label_of c1 x.
Proof.
  intros HC HF w1 w1' c1 qs2 log2 batch2 w2 w2' c2 qs3 log3 batch3 w3 w3' c3 Hk P2 S2 P3 S3 E1 E2 E3.
  pose proof (again_call _ _ _ _ _ _ _ _ _ _ _ _ HC _ _ _ HF E1 qs2 P2) as HC1. pose proof (again_small _ _ _ _ _ _ _ _ _ _ _ _ HC _ _ _ HF E1) as M1.
  pose proof (again_labels _ _ _ _ _ _ _ _ _ _ _ _ HC _ _ _ HF E1) as L1.
  destruct (numbered_small _ _ _ _ _ _ _ _ log2 _ batch2 _ HC1 S2 Hk _ _ _ M1 E2) as (K2 & N2 & U2).
  pose proof (again_call _ _ _ _ _ _ _ _ _ _ _ _ HC1 _ _ _ HF E2 qs3 P3) as HC2. pose proof (again_small _ _ _ _ _ _ _ _ _ _ _ _ HC1 _ _ _ HF E2) as M2.
  pose proof (again_n _ _ _ _ _ _ _ _ _ _ _ _ HC1 _ _ _ E2) as Hn2.
  destruct (numbered_small _ _ _ _ _ _ _ _ log3 _ batch3 _ HC2 S3 ltac:(congruence) _ _ _ M2 E3) as (K3 & N3 & U3). clear E1 E2 E3.
  split; [congruence|]. intros x Hx. destruct (L1 x Hx) as [Hu|(i & Hi & Hxi)].
  - pose proof (U3 x Hx (U2 x Hx Hu)) as H3. unfold unlabelled in *. congruence.
  - pose proof (N2 i x Hi Hxi) as H2. rewrite (N3 (c_k c1 - 1 - i) x).
    + apply elem_of_list_filter in Hxi as [-> _]. do 2 f_equal. lia.
    + lia.
    + apply elem_of_list_filter. split; [done|]. apply elem_of_seq. lia.
Qed.

(** ** Concrete cases *)

(** With empty clusters the numbers are not only reversed. *)
Lemma numbered_empty_refuted : exists l k c, hier_callable l k c /\ few_duplicates (length l) (eucl (line l)) (2 * k) /\ (forall i, i < c_k c -> length (cluster c i) < 2 * k) /\
  exists c' w', hier_line l k false c (world_old (fun _ => false)) = Ok ((ER_OK, Some c'), w') /\ c_k c' <> c_k c.
Proof.
  exists [0; 1; 10; 11]%Z, 2, (old_clustering 3 [0; 0; 2; 2]%Z). split; [apply hier_callable_by; try done; simpl; lia|]. split; [apply few_duplicates_by; by vm_compute|]. split.
  { intros i Hi. assert (i = 0 \/ i = 1 \/ i = 2) as [->|[->| ->]] by (simpl in Hi; lia); vm_compute; lia. }
  destruct (hier_line [0; 1; 10; 11]%Z 2 false (old_clustering 3 [0; 0; 2; 2]%Z) (world_old (fun _ => false))) as [[[ec [c'|]] w']|u] eqn:E.
  2,3: exfalso; by vm_compute in E. exists c', w'. vm_compute in E. injection E as <- <- <-. split; [done|]. simpl. lia.
Qed.
