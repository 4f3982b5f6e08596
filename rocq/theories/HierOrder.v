(** Hierarchical clusterings depend on the order of the distances only. *)

From stdpp Require Import prelude list sorting.
From Coq Require Import NArith ZArith.
From Verif Require Import Base World Mem Float FloatFacts Spi Options Digraph DigraphRep DigraphOps DigraphDiff Arrays NngGraph NngStage NngEst Dist Batch BatchProof ClusSpec ScClaims
  DistProof Example1 FailClaims Hier HierDiv HierFind HierSpec HierRun HierTop HierClaims HierClaims2 ScDet SameDist.

(** The distances [D] and [D'] of any two pairs of the first [n] points compare alike. *)
Definition same_compare (n : nat) (D D' : dist_fun) : Prop :=
  forall a b c e, a < n -> b < n -> c < n -> e < n -> d_le (D a b) (D c e) = d_le (D' a b) (D' c e).
(** Searches from one point compare alike. *)
Definition same_nearer (n : nat) (G G' : geometry) : Prop :=
  forall q x y, q < n -> x < n -> y < n -> nearer G q x y = nearer G' q x y.

Section Order.
Context (n : nat) (G G' : geometry) (D D' : dist_fun).
Hypothesis (HG : same_nearer n G G') (HD : same_compare n D D') (HS : dist_sane G D n) (HS' : dist_sane G' D' n).

Lemma gt_same a b c e : a < n -> b < n -> c < n -> e < n -> d_gt (D a b) (D c e) = d_gt (D' a b) (D' c e).
Proof.
  intros Ha Hb Hc He. pose proof (HD a b c e Ha Hb Hc He) as E.
  pose proof (not_gt (D a b) (D c e) ltac:(by apply (dsn_nonneg _ _ _ HS)) ltac:(by apply (dsn_nonneg _ _ _ HS))) as H1.
  pose proof (not_gt (D' a b) (D' c e) ltac:(by apply (dsn_nonneg _ _ _ HS')) ltac:(by apply (dsn_nonneg _ _ _ HS'))) as H2.
  rewrite E in H1. destruct (d_gt (D a b) (D c e)), (d_gt (D' a b) (D' c e)); try done; [destruct H2 as [H2 _]; destruct H1 as [_ H1]|destruct H1 as [H1 _]; destruct H2 as [_ H2]]; auto.
  - symmetry. auto.
Qed.
Lemma ord_same c x y : c < n -> x < n -> y < n -> ord (D c) x y <-> ord (D' c) x y.
Proof. intros. unfold ord. by rewrite gt_same. Qed.

Lemma closest_same c U a U' : c < n -> Forall (fun x => x < n) U -> closest (D c) U a U' -> closest (D' c) U a U' /\ Forall (fun x => x < n) a /\ Forall (fun x => x < n) U'.
Proof.
  intros Hc HF (P & S & L). rewrite P in HF. apply Forall_app in HF as [Fa FU]. split; [|done]. split; [done|]. rewrite Forall_forall in FU. split.
  - clear P L. induction S as [|x l S IH Hx]; [constructor|]. apply Forall_cons in Fa as [? Fa]. constructor; [by apply IH|]. rewrite Forall_forall in Hx, Fa |- *. intros y Hy. apply ord_same; auto.
  - rewrite Forall_forall in Fa. intros x y Hx Hy. apply ord_same; auto.
Qed.
Lemma reach_same a b c e : c < n -> e < n -> a <> [] -> b <> [] -> Forall (fun x => x < n) a -> Forall (fun x => x < n) b ->
  d_le (reach (D c) a) (reach (D e) b) = d_le (reach (D' c) a) (reach (D' e) b).
Proof.
  intros Hc He Ha Hb Fa Fb. unfold reach. destruct (last a) as [x|] eqn:Ea; [|by apply last_None in Ea]. destruct (last b) as [y|] eqn:Eb; [|by apply last_None in Eb].
  rewrite Forall_forall in Fa, Fb. apply HD; auto; [apply Fa|apply Fb]; by apply last_Some_elem_of.
Qed.

Lemma first_same k1 c1 c2 U a1 a2 U' : 1 <= k1 -> c1 < n -> c2 < n -> Forall (fun x => x < n) U -> first_parts k1 (D c1) (D c2) U a1 a2 U' -> first_parts k1 (D' c1) (D' c2) U a1 a2 U'.
Proof.
  intros Hk H1 H2 HF [b1 U1 b U2 b2 U3 A1 A2 A3 A4 A5 A6 A7|b1 U1 b U2 b2 U3 A1 A2 A3 A4 A5 A6 A7].
  - apply closest_same in A1 as (A1 & F1 & F2); auto. apply closest_same in A3 as (A3 & F3 & F4); auto. apply closest_same in A6 as (A6 & _); auto.
    apply (fp_one _ _ _ _ b1 U1 b U2); auto. rewrite <- A5. symmetry. apply reach_same; auto; intros ->; simpl in *; lia.
  - apply closest_same in A1 as (A1 & F1 & F2); auto. apply closest_same in A3 as (A3 & F3 & F4); auto. apply closest_same in A6 as (A6 & _); auto.
    apply (fp_two _ _ _ _ b1 U1 b U2); auto. rewrite <- A5. symmetry. apply reach_same; auto; intros ->; simpl in *; lia.
Qed.
Lemma rest_same nb c1 c2 num a1 a2 U b1 b2 : 0 < nb -> c1 < n -> c2 < n -> rest_parts nb (D c1) (D c2) num a1 a2 U b1 b2 -> Forall (fun x => x < n) U -> rest_parts nb (D' c1) (D' c2) num a1 a2 U b1 b2.
Proof.
  intros Hnb H1 H2. induction 1 as [a1 a2 U|num a1 a2 U l1 U1 l2 U2 b1 b2 Hp A1 A2 A3 A4 A5 A6 IH|num a1 a2 U l1 U1 l2 U2 b1 b2 Hp A1 A2 A3 A4 A5 A6 IH]; intros HF; [constructor|..];
    apply closest_same in A1 as (A1 & F1 & F2); auto; apply closest_same in A3 as (A3 & F3 & F4); auto.
  - apply (rp_one _ _ _ _ _ _ _ l1 U1 l2 U2); auto. rewrite <- A5. symmetry. apply reach_same; auto; intros ->; simpl in *; lia.
  - apply (rp_two _ _ _ _ _ _ _ l1 U1 l2 U2); auto. rewrite <- A5. symmetry. apply reach_same; auto; intros ->; simpl in *; lia.
Qed.
Lemma divided_same k nb ms c1 c2 ms1 ms2 : 2 <= k -> 0 < nb -> c1 < n -> c2 < n -> Forall (fun x => x < n) ms -> divided k nb (D c1) (D c2) ms c1 c2 ms1 ms2 -> divided k nb (D' c1) (D' c2) ms c1 c2 ms1 ms2.
Proof.
  intros Hk Hnb H1 H2 HF (a1 & a2 & U & b1 & b2 & X1 & X2 & -> & ->). exists a1, a2, U, b1, b2.
  assert (Forall (fun x => x < n) (filter (fun x => x <> c1 /\ x <> c2) ms)) as HFf. { rewrite Forall_forall in HF |- *. intros x Hx%elem_of_list_filter. apply HF. tauto. }
  split; [|split; [|done]].
  - apply first_same; auto. lia.
  - apply rest_same; auto. apply first_parts_all in X1 as (X1 & _). rewrite X1, !Forall_app in HFf. tauto.
Qed.

Definition below (p : option (nat * nat)) : Prop := match p with Some (a, b) => a < n /\ b < n | None => True end.
Lemma seek_same ms todo seen best r : Forall (fun x => x < n) ms -> seek G D ms todo seen best r -> (forall x, x ∈ todo -> x ∈ ms) -> below best -> seek G' D' ms todo seen best r.
Proof.
  intros HF. rewrite Forall_forall in HF. induction 1 as [|q x todo seen best r Hx Hfar _ IH]; intros Hsub Hb; [constructor|].
  assert (q ∈ ms) as Hq by (apply Hsub; left). apply (seek_next _ _ _ _ x); [done|intros y Hy; rewrite <- HG; auto|].
  assert (match best with Some (a, b) => if d_gt (D' q x) (D' a b) then Some (q, x) else best | None => Some (q, x) end =
    match best with Some (a, b) => if d_gt (D q x) (D a b) then Some (q, x) else best | None => Some (q, x) end) as ->.
  { destruct best as [[a b]|]; [|done]. destruct Hb. rewrite gt_same; auto. }
  apply IH; clear IH.
  - intros y [Hy|Hy]%elem_of_app; [apply Hsub; by right|]. case_decide; [by apply elem_of_nil in Hy|]. by apply elem_of_list_singleton in Hy as ->.
  - destruct best as [[a b]|]; [destruct (d_gt _ _); [by split; apply HF|exact Hb]|by split; apply HF].
Qed.
Lemma tree_same k nb ms news : 2 <= k -> 0 < nb -> hier_tree k nb G D ms news -> NoDup ms -> Forall (fun x => x < n) ms -> hier_tree k nb G' D' ms news.
Proof.
  intros Hk Hnb. induction 1 as [|ms Hne Hs|ms c1 c2 ms1 ms2 r1 r2 Hl Hc Hd _ IH2 _ IH1]; intros HN HF; [by constructor..|].
  assert (centers G' D' ms c1 c2) as Hc'. { apply seek_same; auto; [|done]. intros x. apply start_points_sub. }
  apply centers_far in Hc as (C1 & C2 & _). pose proof HF as HF'. rewrite Forall_forall in HF'.
  assert (1 <= k) as Hk1 by lia. destruct (divided_sub _ _ _ _ _ _ _ _ _ Hnb Hk1 Hl HN C1 C2 Hd) as (N1 & N2 & S1 & S2 & _).
  apply (ht_split _ _ _ _ _ c1 c2 ms1 ms2); auto.
  - apply divided_same; auto.
  - apply IH2; auto. apply Forall_forall. auto.
  - apply IH1; auto. apply Forall_forall. auto.
Qed.
Lemma forest_same k nb starts news : 2 <= k -> 0 < nb -> Forall NoDup starts -> Forall (Forall (fun x => x < n)) starts -> hier_forest k nb G D starts news -> hier_forest k nb G' D' starts news.
Proof.
  intros Hk Hnb HN HF (rs & H & ->). exists rs. split; [|done]. induction H as [|ms r starts rs Ht _ IH]; constructor; apply Forall_cons in HN as [? ?]; apply Forall_cons in HF as [? ?]; [by apply tree_same|by apply IH].
Qed.
End Order.

Lemma same_compare_sym n D D' : same_compare n D D' -> same_compare n D' D.
Proof. intros H a b c e Ha Hb Hc He. symmetry. by apply H. Qed.
Lemma same_nearer_sym n G G' : same_nearer n G G' -> same_nearer n G' G.
Proof. intros H a b c Ha Hb Hc. symmetry. by apply H. Qed.

Lemma hier_order n G D G' D' k batch cfg1 P1 V1 ds1 qs1 log1 c1 w1 c1' w1' cfg2 P2 V2 ds2 qs2 log2 c2 w2 c2' w2' :
  hier_call cfg1 P1 V1 ds1 n G D qs1 k c1 -> hier_call cfg2 P2 V2 ds2 n G' D' qs2 k c2 -> sorts qs1 -> sorts qs2 ->
  no_ties n G -> no_equal_dists n D -> same_nearer n G G' -> same_compare n D D' -> c_k c1 = c_k c2 -> (c_k c1 <> 0 -> cells c1 = cells c2) ->
  hierarchical_clustering cfg1 P1 qs1 log1 ds1 k batch (Some c1) w1 = Ok ((ER_OK, Some c1'), w1') ->
  hierarchical_clustering cfg2 P2 qs2 log2 ds2 k batch (Some c2) w2 = Ok ((ER_OK, Some c2'), w2') ->
  c_k c1' = c_k c2' /\ cells c1' = cells c2'.
Proof.
  intros H1 H2 S1 S2 HT HD SG SD Ek Ec R1 R2. destruct (hier_procedure _ _ _ _ _ _ _ _ _ _ _ _ H1 S1 _ _ _ R1) as (r1 & L1 & F1 & C1 & A1).
  destruct (hier_procedure _ _ _ _ _ _ _ _ _ _ _ _ H2 S2 _ _ _ R2) as (r2 & L2 & F2 & C2 & A2).
  pose proof (starts_fine c1) as [N1 N2]. pose proof (starts_fine c2) as [M1 M2]. pose proof (hc_n _ _ _ _ _ _ _ _ _ _ H1) as En1. pose proof (hc_n _ _ _ _ _ _ _ _ _ _ H2) as En2. rewrite En1 in N2. rewrite En2 in M2.
  pose proof (hc_size _ _ _ _ _ _ _ _ _ _ H1) as Hk. assert (0 < (if batch then k else 1)) as Hnb by (destruct batch; lia).
  apply (forest_same n G' G D' D (same_nearer_sym _ _ _ SG) (same_compare_sym _ _ _ SD) (hc_sane _ _ _ _ _ _ _ _ _ _ H2) (hc_sane _ _ _ _ _ _ _ _ _ _ H1)) in F2; auto; [|lia].
  assert (starts_of c1 = starts_of c2) as Es.
  { unfold starts_of. rewrite <- Ek, En1, En2. case_decide as Hz; [done|]. apply list_fmap_ext. intros ? j _. cbn. f_equal. unfold cluster, label_of. rewrite En1, En2, (Ec Hz). done. }
  assert (r1 = r2) as <-. { apply (forest_unique k (if batch then k else 1) n G D) with (starts := starts_of c1); auto; [lia|]. by rewrite Es. }
  split; [lia|]. pose proof (start_cells_length _ _ _ _ _ _ _ _ _ _ H1) as HL1. pose proof (start_cells_length _ _ _ _ _ _ _ _ _ _ H2) as HL2.
  eapply painted_unique; [| | | |exact A1|exact A2]; [lia..|]. intros x Hx Hn.
  assert (x ∉ concat (starts_of c1)) as Hn'.
  { rewrite <- (forest_cover n G D k (if batch then k else 1)); eauto; [lia|apply (hc_sane _ _ _ _ _ _ _ _ _ _ H1)|apply no_equal_few; [done|lia]]. }
  unfold starts_of in Hn'. case_decide as Hz.
  - exfalso. apply Hn'. simpl. rewrite app_nil_r. apply elem_of_seq. lia.
  - specialize (Ec Hz). unfold start_cells, cells in *. destruct (hc_labels _ _ _ _ _ _ _ _ _ _ H1) as [?|[HV _]]; [done|]. destruct (hc_labels _ _ _ _ _ _ _ _ _ _ H2) as [?|[HV2 _]]; [lia|].
    destruct (HV 0 ltac:(lia)) as (z & Hz1 & _). destruct (HV2 0 ltac:(lia)) as (z2 & Hz2 & _). unfold cells in *. destruct (c_label c1), (c_label c2); try done. by rewrite Ec.
Qed.

(** ** Examples *)

Definition compare_b (n : nat) (D D' : dist_fun) : bool :=
  forallb (fun a => forallb (fun b => forallb (fun c => forallb (fun e => Bool.eqb (d_le (D a b) (D c e)) (d_le (D' a b) (D' c e))) (seq 0 n)) (seq 0 n)) (seq 0 n)) (seq 0 n).
Lemma compare_by n D D' : compare_b n D D' = true -> same_compare n D D'.
Proof. intros H a b c e Ha Hb Hc He. apply eqb_prop. by apply (all_below n _ (all_below n _ (all_below n _ (all_below n _ H a Ha) b Hb) c Hc) e He). Qed.
Definition nearer_b (n : nat) (G G' : geometry) : bool :=
  forallb (fun q => forallb (fun x => forallb (fun y => Bool.eqb (nearer G q x y) (nearer G' q x y)) (seq 0 n)) (seq 0 n)) (seq 0 n).
Lemma nearer_by n G G' : nearer_b n G G' = true -> same_nearer n G G'.
Proof. intros H q x y Hq Hx Hy. apply eqb_prop. by apply (all_below n _ (all_below n _ (all_below n _ H q Hq) x Hx) y Hy). Qed.

(** Powers of three and of four. *)
Definition threes : list Z := [1; 243; 9; 27; 81; 3; 729]%Z.
Definition fours : list Z := [1; 1024; 16; 64; 256; 4; 4096]%Z.
Lemma order_example : hier_callable threes 2 (new_clustering 7) /\ hier_callable fours 2 (new_clustering 7) /\ sorts sort_edges /\
  no_ties 7 (eucl_geo (line threes)) /\ no_equal_dists 7 (eucl (line threes)) /\
  same_nearer 7 (eucl_geo (line threes)) (eucl_geo (line fours)) /\ same_compare 7 (eucl (line threes)) (eucl (line fours)) /\
  ends (hier_line threes 2 false (new_clustering 7) world0) ER_OK 3 [2; 0; 2; 1; 1; 2; 0]%Z 1 /\ ends (hier_line fours 2 false (new_clustering 7) world0) ER_OK 3 [2; 0; 2; 1; 1; 2; 0]%Z 1.
Proof.
  do 2 (split; [apply hier_callable_by; try done; simpl; lia|]). split; [apply sort_edges_sorts|]. split; [apply no_ties_by; by vm_compute|]. split; [apply no_equal_dists_by; by vm_compute|].
  split; [apply nearer_by; by vm_compute|]. split; [apply compare_by; by vm_compute|]. split; apply ends_by; by vm_compute.
Qed.

(** Four points; in the second list another pair is farthest from each other, but the
    order of the points by the distance from any of them is the same. *)
Definition quad1 : list (Z * Z) := [(0, 20); (18, 0); (0, 0); (22, 22)]%Z.
Definition quad2 : list (Z * Z) := [(-6, 20); (19, -6); (0, 0); (17, 19)]%Z.
Lemma order_refuted : exists d d' k c w c' w', data_hier default_config d 4 sort_edges k (new_clustering 4) /\ data_hier default_config d' 4 sort_edges k (new_clustering 4) /\
  no_ties 4 (eucl_geo d) /\ no_equal_dists 4 (eucl d) /\ same_nearer 4 (eucl_geo d) (eucl_geo d') /\
  hier_on d k = Ok ((ER_OK, Some c), w) /\ hier_on d' k = Ok ((ER_OK, Some c'), w') /\ c_k c = 2 /\ c_k c' = 2 /\ cells c !! 0 = cells c !! 3 /\ cells c' !! 0 <> cells c' !! 3.
Proof.
  assert (forall d, data_ok d 4 -> data_hier default_config d 4 sort_edges 2 (new_clustering 4)) as HC.
  { intros d Hd. assert (hier_callable [1; 2; 4; 8]%Z 2 (new_clustering 4)) as [] by (apply hier_callable_by; try done; simpl; lia).
    constructor; try done; [by apply builtin_ok|by apply builtin_sane|by apply (ds_check _ 4)|by destruct Hd]. }
  exists (plane quad1), (plane quad2), 2. eexists _, _, _, _. do 2 (split; [apply HC, plane_data; by vm_compute|]). split; [apply no_ties_by; by vm_compute|]. split; [apply no_equal_dists_by; by vm_compute|].
  split; [apply nearer_by; by vm_compute|]. split; [vm_compute; reflexivity|]. split; [vm_compute; reflexivity|]. split; [reflexivity|]. split; [reflexivity|]. split; [reflexivity|]. vm_compute. intros E. discriminate E.
Qed.
