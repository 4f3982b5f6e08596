(** Hierarchical clustering: the procedure and what follows from it. *)

From stdpp Require Import prelude list sorting.
From Coq Require Import NArith ZArith.
From Verif Require Import Base World Mem Float FloatFacts Spi Options Digraph DigraphRep DigraphOps DigraphDiff Arrays NngGraph NngStage NngEst Dist Batch BatchProof ClusSpec ScClaims
  DistProof Example1 FailClaims Hier HierDiv HierFind HierSpec HierRun HierTop HierClaims ScDet.

Lemma hier_procedure cfg P V ds n G D qs log2cap k batch c : hier_call cfg P V ds n G D qs k c -> sorts qs ->
  forall w c' w', hierarchical_clustering cfg P qs log2cap ds k batch (Some c) w = Ok ((ER_OK, Some c'), w') ->
  exists news, length news = c_k c' /\ hier_forest k (if batch then k else 1) G D (starts_of c) news /\
    length (cells c') = n /\ painted (start_cells c) (cells c') news.
Proof.
  intros HC Hs w c' w' E. destruct (hier_exact _ _ _ _ _ _ _ _ log2cap _ batch _ HC w) as (ec' & c1 & w'' & E' & _ & _ & H). rewrite E' in E. injection E as -> -> ->.
  destruct H as [(_ & _ & _ & _ & Hl & _ & _ & H)|(? & _)]; [|done]. destruct (H Hs) as (news & H1 & H2 & H3). exists news. auto.
Qed.

(** ** The parts of a cluster *)

Lemma omap_sub {A B} (f : A -> option B) (l : list A) y : y ∈ omap f l -> exists x, x ∈ l /\ f x = Some y.
Proof. rewrite elem_of_list_omap. done. Qed.

Lemma start_points_sub ms x : x ∈ start_points ms -> x ∈ ms.
Proof. unfold start_points. cbv zeta. generalize (Nat.max 2 (length ms / 100)), (seq 0 100). intros step l H. apply omap_sub in H as (i & _ & H). by eapply elem_of_list_lookup_2. Qed.

Lemma seek_result G D ms todo seen best r : seek G D ms todo seen best r -> (forall x, x ∈ todo -> x ∈ ms) ->
  r = best \/ exists a b, r = Some (a, b) /\ a ∈ ms /\ b ∈ ms /\ forall y, y ∈ ms -> nearer G a y b = true.
Proof.
  induction 1 as [|q x todo seen best r Hx Hfar _ IH]; intros Hsub; [by left|].
  destruct IH as [->|IH]; [|destruct best as [[a b]|]; [case_match|]|by right].
  - intros y [Hy|Hy]%elem_of_app; [apply Hsub; by right|]. case_decide; [by apply elem_of_nil in Hy|]. by apply elem_of_list_singleton in Hy as ->.
  - right. exists q, x. splits; auto. apply Hsub. left.
  - by left.
  - right. exists q, x. splits; auto. apply Hsub. left.
Qed.

Lemma centers_far G D ms c1 c2 : centers G D ms c1 c2 -> c1 ∈ ms /\ c2 ∈ ms /\ forall y, y ∈ ms -> nearer G c1 y c2 = true.
Proof.
  intros H. apply seek_result in H as [?|(a & b & [= -> ->] & H)]; [done|done|]. intros x. apply start_points_sub.
Qed.

Lemma first_parts_all k1 f1 f2 U a1 a2 U' : first_parts k1 f1 f2 U a1 a2 U' -> U ≡ₚ a1 ++ a2 ++ U' /\ length a1 = k1 /\ length a2 = k1.
Proof.
  intros [b1 U1 b U2 b2 U3 (H1 & _) ? (H2 & _) ? _ (H3 & _) ?|b1 U1 b U2 b2 U3 (H1 & _) ? (H2 & _) ? _ (H3 & _) ?]; splits; auto.
  - rewrite H1, H3. done.
  - rewrite H2, H3. apply Permutation_app_swap_app.
Qed.

Lemma rest_parts_all nb f1 f2 num a1 a2 U b1 b2 : 0 < nb -> rest_parts nb f1 f2 num a1 a2 U b1 b2 ->
  exists U', a1 ++ a2 ++ U ≡ₚ b1 ++ b2 ++ U' /\ length b1 + length b2 = length a1 + length a2 + num.
Proof.
  intros Hnb. induction 1 as [a1 a2 U|num a1 a2 U l1 U1 l2 U2 b1 b2 ? (H1 & _) ? (H2 & _) ? _ _ IH|num a1 a2 U l1 U1 l2 U2 b1 b2 ? (H1 & _) ? (H2 & _) ? _ _ IH].
  - exists U. split; [done|lia].
  - destruct IH as (U' & HP & Hl). exists U'. split; [|rewrite app_length in Hl; lia]. rewrite <- HP, H1, <- app_assoc. apply Permutation_app_head, Permutation_app_swap_app.
  - destruct IH as (U' & HP & Hl). exists U'. split; [|rewrite app_length in Hl; lia]. rewrite <- HP, H2, <- app_assoc. done.
Qed.

Lemma divided_all k nb f1 f2 ms c1 c2 ms1 ms2 : 0 < nb -> 1 <= k -> 2 * k <= length ms -> divided k nb f1 f2 ms c1 c2 ms1 ms2 ->
  exists b1 b2 U, ms1 = c1 :: b1 /\ ms2 = rev b2 ++ [c2] /\ filter (fun x => x <> c1 /\ x <> c2) ms ≡ₚ b1 ++ b2 ++ U /\ length b1 + length b2 + 2 = length ms.
Proof.
  intros Hnb Hk Hms (a1 & a2 & U & b1 & b2 & H1 & H2 & -> & ->). apply first_parts_all in H1 as (H1 & ? & ?). apply rest_parts_all in H2 as (U' & H2 & ?); [|done].
  exists b1, b2, U'. splits; auto; [by rewrite H1, H2|lia].
Qed.

Lemma divided_sub k nb f1 f2 ms c1 c2 ms1 ms2 : 0 < nb -> 1 <= k -> 2 * k <= length ms -> NoDup ms -> c1 ∈ ms -> c2 ∈ ms -> divided k nb f1 f2 ms c1 c2 ms1 ms2 ->
  NoDup ms1 /\ NoDup ms2 /\ (forall x, x ∈ ms1 -> x ∈ ms) /\ (forall x, x ∈ ms2 -> x ∈ ms) /\ (c1 <> c2 -> ms1 ++ ms2 ≡ₚ ms).
Proof.
  intros Hnb Hk Hms Hnd Hc1 Hc2 H. apply divided_all in H as (b1 & b2 & U & -> & -> & HP & Hl); auto.
  assert (forall x, x ∈ b1 \/ x ∈ b2 -> x ∈ ms /\ x <> c1 /\ x <> c2) as Hsub.
  { intros x Hx. assert (x ∈ filter (fun x => x <> c1 /\ x <> c2) ms) as Hf by (rewrite HP; set_solver). apply elem_of_list_filter in Hf. tauto. }
  assert (NoDup (b1 ++ b2 ++ U)) as Hnb2. { rewrite <- HP. by apply NoDup_filter. }
  apply NoDup_app in Hnb2 as (N1 & N2 & N3). apply NoDup_app in N3 as (N3 & N4 & N5). splits.
  - apply NoDup_cons. split; [|done]. intros Hx. destruct (Hsub c1); [by left|]. tauto.
  - apply NoDup_app. splits; [by rewrite <- Permutation_rev| |apply NoDup_singleton]. intros x Hx Hx2. apply elem_of_list_singleton in Hx2 as ->. rewrite <- Permutation_rev in Hx. destruct (Hsub c2); [by right|]. tauto.
  - intros x [->|Hx]%elem_of_cons; [done|]. apply Hsub. by left.
  - intros x [Hx|Hx]%elem_of_app; [apply Hsub; right; by rewrite <- Permutation_rev in Hx|]. by apply elem_of_list_singleton in Hx as ->.
  - intros Hne. pose proof (others_distinct ms c1 c2 Hnd Hc1 Hc2 Hne) as Ho. unfold others in Ho. rewrite HP in Ho.
    assert (U = []) as ->. { apply Permutation_length in Ho. simpl in Ho. rewrite !app_length in Ho. destruct U; [done|simpl in Ho; lia]. }
    rewrite app_nil_r in Ho. rewrite Ho, <- Permutation_rev. simpl. constructor. rewrite app_assoc. by rewrite <- Permutation_cons_append.
Qed.

(** The clusters made of a cluster are parts of it. *)
Lemma tree_sub k nb G D ms news : 1 <= k -> 0 < nb -> hier_tree k nb G D ms news -> NoDup ms -> forall d, d ∈ news -> NoDup d /\ d <> [] /\ forall x, x ∈ d -> x ∈ ms.
Proof.
  intros Hk Hnb. induction 1 as [|ms Hne Hs|ms c1 c2 ms1 ms2 r1 r2 Hl Hc Hd _ IH2 _ IH1]; intros Hnd d Hdn.
  - by apply elem_of_nil in Hdn.
  - apply elem_of_list_singleton in Hdn as ->. auto.
  - apply centers_far in Hc as (C1 & C2 & _). destruct (divided_sub _ _ _ _ _ _ _ _ _ Hnb Hk Hl Hnd C1 C2 Hd) as (N1 & N2 & S1 & S2 & _).
    apply elem_of_app in Hdn as [Hdn|Hdn]; [destruct (IH2 N2 d Hdn) as (? & ? & ?)|destruct (IH1 N1 d Hdn) as (? & ? & ?)]; splits; auto.
Qed.

(** ** No point gets lost unless points coincide *)

Section Cover.
Context (k nb n : nat) (G : geometry) (D : dist_fun).
Hypothesis (Hk : 1 <= k) (Hnb : 0 < nb) (HG : dist_sane G D n) (HF : few_duplicates n D (2 * k)).

Lemma centers_differ ms c1 c2 : 2 * k <= length ms -> NoDup ms -> Forall (fun x => x < n) ms -> centers G D ms c1 c2 -> c1 <> c2.
Proof.
  intros Hl Hnd Hlt Hc <-. apply centers_far in Hc as (C1 & _ & C3). rewrite Forall_forall in Hlt.
  assert (length ms < 2 * k); [|lia]. apply (HF c1); [by apply Hlt|done|]. apply Forall_forall. intros y Hy. split; [by apply Hlt|].
  apply (dsn_zero _ _ _ HG); auto.
Qed.

Lemma tree_cover ms news : hier_tree k nb G D ms news -> NoDup ms -> Forall (fun x => x < n) ms -> concat news ≡ₚ ms.
Proof.
  induction 1 as [|ms Hne Hs|ms c1 c2 ms1 ms2 r1 r2 Hl Hc Hd _ IH2 _ IH1]; intros Hnd Hlt.
  - done.
  - simpl. by rewrite app_nil_r.
  - pose proof (centers_differ _ _ _ Hl Hnd Hlt Hc) as Hne. apply centers_far in Hc as (C1 & C2 & _). destruct (divided_sub _ _ _ _ _ _ _ _ _ Hnb Hk Hl Hnd C1 C2 Hd) as (N1 & N2 & S1 & S2 & HP).
    rewrite Forall_forall in Hlt. rewrite concat_app, IH1, IH2 by (done || (apply Forall_forall; auto)). rewrite Permutation_app_comm. by apply HP.
Qed.
End Cover.

(** ** Without ties *)

(** No two points have the same distance to a point. *)
Definition no_equal_dists (n : nat) (D : dist_fun) : Prop :=
  forall q x y, q < n -> x < n -> y < n -> x <> y -> d_gt (D q x) (D q y) = true \/ d_gt (D q y) (D q x) = true.

Lemma closest_unique f U V a b Ua Vb : closest f U a Ua -> closest f V b Vb -> U ≡ₚ V -> NoDup U -> length a = length b ->
  (forall x y, x ∈ U -> y ∈ U -> ord f x y -> ord f y x -> x = y) -> a = b /\ Ua ≡ₚ Vb.
Proof.
  intros (P1 & S1 & L1) (P2 & S2 & L2) HUV Hnd Hlen Hanti.
  assert (NoDup (a ++ Ua)) as N1 by (by rewrite <- P1). assert (NoDup (b ++ Vb)) as N2 by (by rewrite <- P2, <- HUV).
  apply NoDup_app in N1 as (Na & Da & _). apply NoDup_app in N2 as (Nb & Db & _).
  assert (forall x, x ∈ U <-> x ∈ a \/ x ∈ Ua) as E1 by (intros x; by rewrite P1, elem_of_app).
  assert (forall x, x ∈ U <-> x ∈ b \/ x ∈ Vb) as E2 by (intros x; by rewrite HUV, P2, elem_of_app).
  assert (a ≡ₚ b) as Hab.
  { apply nodup_perm_of_sub; auto; [lia|]. intros x Hx. destruct (decide (x ∈ b)) as [|Hn]; [done|]. exfalso.
    assert (exists y, y ∈ b /\ y ∉ a) as (y & Hy & Hyn).
    { destruct (decide (Exists (fun y => y ∉ a) b)) as [He|He]; [by apply Exists_exists in He|]. exfalso.
      assert (b ≡ₚ a) as Hp.
      { apply nodup_perm_of_sub; auto; [lia|]. intros y Hy. destruct (decide (y ∈ a)); [done|]. exfalso. apply He, Exists_exists. eauto. }
      apply Hn. by rewrite Hp. }
    assert (x ∈ U) as HxU by (apply E1; by left). assert (y ∈ U) as HyU by (apply E2; by left).
    assert (x ∈ Vb) as HxV by (apply E2 in HxU; tauto). assert (y ∈ Ua) as HyV by (apply E1 in HyU; tauto).
    assert (x = y) as -> by (apply Hanti; auto). done. }
  assert (a = b) as ->.
  { eapply sorted_unique; [|exact S1|exact S2|done]. intros x y Hx Hy. apply Hanti; apply E1; by left. }
  split; [done|]. apply (Permutation_app_inv_l b). by rewrite <- P1, <- P2.
Qed.

Section Unique.
Context (k nb n : nat) (G : geometry) (D : dist_fun).
Hypothesis (Hk : 1 <= k) (Hnb : 0 < nb) (HT : no_ties n G) (HD : no_equal_dists n D).

Lemma ord_anti c x y : c < n -> x < n -> y < n -> ord (D c) x y -> ord (D c) y x -> x = y.
Proof. intros Hc Hx Hy H1 H2. destruct (decide (x = y)) as [|Hne]; [done|]. unfold ord in *. destruct (HD c x y Hc Hx Hy Hne); congruence. Qed.

Lemma first_parts_unique k1 c1 c2 U V a1 a2 U' b1 b2 V' : c1 < n -> c2 < n -> NoDup U -> Forall (fun x => x < n) U -> U ≡ₚ V ->
  first_parts k1 (D c1) (D c2) U a1 a2 U' -> first_parts k1 (D c1) (D c2) V b1 b2 V' -> a1 = b1 /\ a2 = b2 /\ U' ≡ₚ V'.
Proof.
  intros H1 H2 Hnd Hlt HUV X Y. rewrite Forall_forall in Hlt.
  assert (forall c S T a b Sa Tb, c < n -> closest (D c) S a Sa -> closest (D c) T b Tb -> S ≡ₚ T -> length a = length b -> NoDup S -> (forall x, x ∈ S -> x ∈ U) -> a = b /\ Sa ≡ₚ Tb) as HC.
  { intros c S T a b Sa Tb Hc C1 C2 HP Hl HN HS. eapply closest_unique; eauto. intros x y Hx Hy. apply ord_anti; auto. }
  assert (forall c a Sa, closest (D c) U a Sa -> NoDup Sa /\ forall x, x ∈ Sa -> x ∈ U) as HS.
  { intros c a Sa (P1 & _). assert (NoDup (a ++ Sa)) as N by (by rewrite <- P1). apply NoDup_app in N as (_ & _ & N). split; [done|]. intros x Hx. rewrite P1. set_solver. }
  destruct X as [a1 U1 b U2 a2 U' A1 A2 A3 A4 A5 A6 A7|a1 U1 b U2 a2 U' A1 A2 A3 A4 A5 A6 A7]; destruct Y as [b1 V1 e V2 b2 V' B1 B2 B3 B4 B5 B6 B7|b1 V1 e V2 b2 V' B1 B2 B3 B4 B5 B6 B7].
  - destruct (HC c1 U V a1 b1 U1 V1) as [-> HP]; auto; [lia|]. destruct (HS _ _ _ A1) as [N1 S1].
    destruct (HC c2 U1 V1 a2 b2 U' V') as [-> HP']; auto; lia.
  - destruct (HC c1 U V a1 e U1 V1) as [-> HP]; auto; [lia|]. destruct (HC c2 U V b b2 U2 V2) as [-> HP2]; auto; [lia|]. congruence.
  - destruct (HC c1 U V b b1 U1 V1) as [-> HP]; auto; [lia|]. destruct (HC c2 U V a2 e U2 V2) as [-> HP2]; auto; [lia|]. congruence.
  - destruct (HC c2 U V a2 b2 U2 V2) as [-> HP]; auto; [lia|]. destruct (HS _ _ _ A3) as [N1 S1].
    destruct (HC c1 U2 V2 a1 b1 U' V') as [-> HP']; auto; lia.
Qed.

Lemma rest_parts_unique num c1 c2 a1 a2 U b1 b2 : c1 < n -> c2 < n -> rest_parts nb (D c1) (D c2) num a1 a2 U b1 b2 -> NoDup U -> Forall (fun x => x < n) U ->
  forall V e1 e2, U ≡ₚ V -> rest_parts nb (D c1) (D c2) num a1 a2 V e1 e2 -> b1 = e1 /\ b2 = e2.
Proof.
  intros Hc1 Hc2. assert (forall U V c a b Sa Tb, NoDup U -> Forall (fun x => x < n) U -> c < n -> closest (D c) U a Sa -> closest (D c) V b Tb -> U ≡ₚ V -> length a = length b ->
    a = b /\ Sa ≡ₚ Tb /\ NoDup Sa /\ Forall (fun x => x < n) Sa) as HC.
  { intros S T c a b Sa Tb HN HF Hc C1 C2 HP Hl. destruct (closest_unique (D c) S T a b Sa Tb) as [E1 E2]; auto.
    - rewrite Forall_forall in HF. intros x y Hx Hy. apply ord_anti; auto.
    - destruct C1 as (P1 & _). rewrite P1 in HN, HF. apply NoDup_app in HN as (_ & _ & HN). apply Forall_app in HF as [_ HF]. auto. }
  induction 1 as [a1 a2 U|num a1 a2 U l1 U1 l2 U2 b1 b2 Hp A1 A2 A3 A4 A5 A6 IH|num a1 a2 U l1 U1 l2 U2 b1 b2 Hp A1 A2 A3 A4 A5 A6 IH]; intros HN HF V e1 e2 HUV Y.
  - inversion Y; subst; [done|lia|lia].
  - inversion Y as [|num' a1' a2' U' m1 V1 m2 V2 b1' b2' Hp' B1 B2 B3 B4 B5 B6|num' a1' a2' U' m1 V1 m2 V2 b1' b2' Hp' B1 B2 B3 B4 B5 B6]; subst; [lia| |].
    + destruct (HC U V c1 l1 m1 U1 V1) as (-> & HP & ? & ?); auto; [lia|]. eapply IH; eauto.
    + destruct (HC U V c1 l1 m1 U1 V1) as (-> & HP & ? & ?); auto; [lia|]. destruct (HC U V c2 l2 m2 U2 V2) as (-> & HP2 & ? & ?); auto; [lia|]. congruence.
  - inversion Y as [|num' a1' a2' U' m1 V1 m2 V2 b1' b2' Hp' B1 B2 B3 B4 B5 B6|num' a1' a2' U' m1 V1 m2 V2 b1' b2' Hp' B1 B2 B3 B4 B5 B6]; subst; [lia| |].
    + destruct (HC U V c1 l1 m1 U1 V1) as (-> & HP & ? & ?); auto; [lia|]. destruct (HC U V c2 l2 m2 U2 V2) as (-> & HP2 & ? & ?); auto; [lia|]. congruence.
    + destruct (HC U V c2 l2 m2 U2 V2) as (-> & HP & ? & ?); auto; [lia|]. eapply IH; eauto.
Qed.

Lemma divided_unique ms c1 c2 ms1 ms2 ns1 ns2 : c1 < n -> c2 < n -> NoDup ms -> Forall (fun x => x < n) ms ->
  divided k nb (D c1) (D c2) ms c1 c2 ms1 ms2 -> divided k nb (D c1) (D c2) ms c1 c2 ns1 ns2 -> ms1 = ns1 /\ ms2 = ns2.
Proof.
  intros H1 H2 HN HF (a1 & a2 & U & b1 & b2 & X1 & X2 & -> & ->) (a1' & a2' & U' & b1' & b2' & Y1 & Y2 & -> & ->).
  assert (NoDup (filter (fun x => x <> c1 /\ x <> c2) ms)) as HNf by (by apply NoDup_filter).
  assert (Forall (fun x => x < n) (filter (fun x => x <> c1 /\ x <> c2) ms)) as HFf.
  { rewrite Forall_forall in HF |- *. intros x Hx%elem_of_list_filter. apply HF. tauto. }
  destruct (first_parts_unique _ _ _ _ _ _ _ _ _ _ _ H1 H2 HNf HFf (reflexivity _) X1 Y1) as (-> & -> & HP).
  apply first_parts_all in X1 as (X1 & _). rewrite X1 in HNf, HFf. apply NoDup_app in HNf as (_ & _ & HNf). apply NoDup_app in HNf as (_ & _ & HNf). rewrite !Forall_app in HFf.
  destruct (rest_parts_unique _ _ _ _ _ _ _ _ H1 H2 X2 HNf ltac:(tauto) _ _ _ HP Y2) as [-> ->]. done.
Qed.

Lemma seek_unique ms todo seen best r : Forall (fun x => x < n) ms -> seek G D ms todo seen best r -> (forall x, x ∈ todo -> x ∈ ms) -> forall r', seek G D ms todo seen best r' -> r = r'.
Proof.
  intros HF. rewrite Forall_forall in HF. induction 1 as [|q x todo seen best r Hx Hfar _ IH]; intros Hsub r' Y.
  - by inversion Y.
  - inversion Y as [|q' x' todo' seen' best' r2 Hx' Hfar' Y']; subst.
    assert (x = x') as <-. { destruct (decide (x = x')) as [|Hne]; [done|]. exfalso. apply (HT q x x'); auto. apply HF, Hsub. left. }
    apply IH; auto. intros y [Hy|Hy]%elem_of_app; [apply Hsub; by right|]. case_decide; [by apply elem_of_nil in Hy|]. by apply elem_of_list_singleton in Hy as ->.
Qed.

Lemma tree_unique ms r : hier_tree k nb G D ms r -> NoDup ms -> Forall (fun x => x < n) ms -> forall r', hier_tree k nb G D ms r' -> r = r'.
Proof.
  induction 1 as [|ms Hne Hs|ms c1 c2 ms1 ms2 r1 r2 Hl Hc Hd _ IH2 _ IH1]; intros HN HF r' Y.
  - inversion Y; subst; [done|done|simpl in *; lia].
  - inversion Y; subst; [done|done|lia].
  - inversion Y as [|ms' Hne' Hs'|ms' d1 d2 ns1 ns2 s1 s2 Hl' Hc' Hd' T2 T1]; subst; [simpl in Hl; lia|lia|].
    assert (Some (c1, c2) = Some (d1, d2)) as [= <- <-]. { eapply seek_unique; eauto. intros x. apply start_points_sub. }
    apply centers_far in Hc as (C1 & C2 & _). pose proof HF as HF'. rewrite Forall_forall in HF'.
    destruct (divided_unique ms c1 c2 ms1 ms2 ns1 ns2) as [<- <-]; auto.
    destruct (divided_sub _ _ _ _ _ _ _ _ _ Hnb Hk Hl HN C1 C2 Hd) as (N1 & N2 & S1 & S2 & _).
    rewrite (IH1 N1 ltac:(apply Forall_forall; auto) s1), (IH2 N2 ltac:(apply Forall_forall; auto) s2) by done. done.
Qed.

Lemma forest_unique starts r r' : Forall NoDup starts -> Forall (Forall (fun x => x < n)) starts -> hier_forest k nb G D starts r -> hier_forest k nb G D starts r' -> r = r'.
Proof.
  intros HN HF (rs & H1 & ->) (rs' & H2 & ->). f_equal. revert rs' H2. induction H1 as [|ms r starts rs Ht _ IH]; intros rs' H2; inversion H2; subst; [done|].
  apply Forall_cons in HN as [? ?]. apply Forall_cons in HF as [? ?]. f_equal; [by eapply tree_unique|by apply IH].
Qed.
End Unique.

Lemma painted_unique L0 L0' L L' news : length L0' = length L0 -> length L = length L0 -> length L' = length L0 ->
  (forall x, x < length L0 -> x ∉ concat news -> L0 !! x = L0' !! x) -> painted L0 L news -> painted L0' L' news -> L = L'.
Proof.
  intros H0 H1 H2 Hout P1 P2. apply list_eq. intros x. destruct (decide (x < length L0)) as [Hx|Hx].
  - destruct (P1 x Hx) as [[N1 ->]|(i & d & Hd & Hxd & Hn & ->)], (P2 x ltac:(lia)) as [[N2 ->]|(j & e & He & Hxe & Hm & ->)]; auto.
    + exfalso. apply N1, elem_of_concat. exists e. split; [done|]. by eapply elem_of_list_lookup_2.
    + exfalso. apply N2, elem_of_concat. exists d. split; [done|]. by eapply elem_of_list_lookup_2.
    + destruct (Nat.lt_trichotomy i j) as [Hij|[->|Hij]]; [|done|]; exfalso.
      * apply Hn, elem_of_concat. exists e. split; [done|]. apply (elem_of_list_lookup_2 _ (j - S i)). rewrite lookup_drop. by replace (S i + (j - S i)) with j by lia.
      * apply Hm, elem_of_concat. exists d. split; [done|]. apply (elem_of_list_lookup_2 _ (i - S j)). rewrite lookup_drop. by replace (S j + (i - S j)) with i by lia.
  - rewrite !lookup_ge_None_2 by lia. done.
Qed.

Lemma starts_fine c : Forall NoDup (starts_of c) /\ Forall (Forall (fun x => x < c_n c)) (starts_of c).
Proof.
  unfold starts_of. case_decide.
  - split; apply Forall_singleton; [apply NoDup_seq|]. apply Forall_forall. intros x Hx%elem_of_seq. lia.
  - split; apply Forall_fmap, Forall_forall; intros j _; cbn; [rewrite <- Permutation_rev; apply NoDup_filter, NoDup_seq|].
    apply Forall_forall. intros x Hx. rewrite <- Permutation_rev in Hx. apply elem_of_list_filter in Hx as [_ Hx%elem_of_seq]. lia.
Qed.

Lemma start_cells_length cfg P V ds n G D qs k c : hier_call cfg P V ds n G D qs k c -> length (start_cells c) = n.
Proof.
  intros HC. pose proof (hc_cells _ _ _ _ _ _ _ _ _ _ HC) as Ho. pose proof (hc_n _ _ _ _ _ _ _ _ _ _ HC) as Hn. unfold start_cells, clu_ok in *. destruct (c_label c); [lia|]. unfold fresh. rewrite replicate_length. lia.
Qed.


(** Every point of the clusters to start from is in one of the new ones. *)
Lemma forest_cover n G D k nb starts news : 1 <= k -> 0 < nb -> dist_sane G D n -> few_duplicates n D (2 * k) -> Forall NoDup starts -> Forall (Forall (fun x => x < n)) starts ->
  hier_forest k nb G D starts news -> concat news ≡ₚ concat starts.
Proof.
  intros Hk Hnb HG HF HN Hlt (rs & H & ->). induction H as [|ms r starts rs Ht _ IH]; [done|]. apply Forall_cons in HN as [? ?]. apply Forall_cons in Hlt as [? ?].
  simpl. rewrite concat_app. apply Permutation_app; [by apply (tree_cover k nb n G D)|by apply IH].
Qed.

Lemma no_equal_few n D m : no_equal_dists n D -> 2 <= m -> few_duplicates n D m.
Proof.
  intros H Hm a l Ha Hnd Hl. destruct l as [|x [|y l]]; simpl; [lia|lia|]. exfalso. apply Forall_cons in Hl as [[Hx Ex] Hl]. apply Forall_cons in Hl as [[Hy Ey] _].
  apply NoDup_cons in Hnd as [Hn _]. destruct (H a x y Ha Hx Hy) as [E|E]; [set_solver|rewrite Ex, Ey in E..]; by vm_compute in E.
Qed.

Lemma hier_determined n G D k batch cfg1 P1 V1 ds1 qs1 log1 c1 w1 c1' w1' cfg2 P2 V2 ds2 qs2 log2 c2 w2 c2' w2' :
  hier_call cfg1 P1 V1 ds1 n G D qs1 k c1 -> hier_call cfg2 P2 V2 ds2 n G D qs2 k c2 -> sorts qs1 -> sorts qs2 ->
  no_ties n G -> no_equal_dists n D -> c_k c1 = c_k c2 -> (c_k c1 <> 0 -> cells c1 = cells c2) ->
  hierarchical_clustering cfg1 P1 qs1 log1 ds1 k batch (Some c1) w1 = Ok ((ER_OK, Some c1'), w1') ->
  hierarchical_clustering cfg2 P2 qs2 log2 ds2 k batch (Some c2) w2 = Ok ((ER_OK, Some c2'), w2') ->
  c_k c1' = c_k c2' /\ cells c1' = cells c2'.
Proof.
  intros H1 H2 S1 S2 HT HD Ek Ec R1 R2. destruct (hier_procedure _ _ _ _ _ _ _ _ _ _ _ _ H1 S1 _ _ _ R1) as (r1 & L1 & F1 & C1 & A1).
  destruct (hier_procedure _ _ _ _ _ _ _ _ _ _ _ _ H2 S2 _ _ _ R2) as (r2 & L2 & F2 & C2 & A2).
  pose proof (starts_fine c1) as [N1 N2]. pose proof (hc_n _ _ _ _ _ _ _ _ _ _ H1) as En1. pose proof (hc_n _ _ _ _ _ _ _ _ _ _ H2) as En2. rewrite En1 in N2.
  pose proof (hc_size _ _ _ _ _ _ _ _ _ _ H1) as Hk. assert (0 < (if batch then k else 1)) as Hnb by (destruct batch; lia).
  assert (starts_of c1 = starts_of c2) as Es.
  { unfold starts_of. rewrite <- Ek, En1, En2. case_decide as Hz; [done|]. apply list_fmap_ext. intros ? j _. cbn. f_equal. unfold cluster, label_of. rewrite En1, En2, (Ec Hz). done. }
  assert (r1 = r2) as <-. { apply (forest_unique k (if batch then k else 1) n G D) with (starts := starts_of c1); auto; [lia|]. by rewrite Es. }
  split; [lia|]. pose proof (start_cells_length _ _ _ _ _ _ _ _ _ _ H1) as HL1. pose proof (start_cells_length _ _ _ _ _ _ _ _ _ _ H2) as HL2.
  eapply painted_unique; [| | | |exact A1|exact A2]; [lia..|]. intros x Hx Hn.
  assert (x ∉ concat (starts_of c1)) as Hn'.
  { rewrite <- (forest_cover n G D k (if batch then k else 1)); eauto; [lia|apply (hc_sane _ _ _ _ _ _ _ _ _ _ H1)|apply no_equal_few; [done|lia]]. }
  unfold starts_of in Hn'. case_decide as Hz.
  - exfalso. apply Hn'. simpl. rewrite app_nil_r. apply elem_of_seq. lia.
  - specialize (Ec Hz). unfold start_cells, cells in *. destruct (hc_labels _ _ _ _ _ _ _ _ _ _ H1) as [?|[HV _]]; [done|]. destruct (hc_labels _ _ _ _ _ _ _ _ _ _ H2) as [?|[HV2 _]]; [lia|].
    destruct (HV 0 ltac:(lia)) as (z & Hz1 & _). destruct (HV2 0 ltac:(lia)) as (z2 & Hz2 & _). unfold cells in *. destruct (c_label c1), (c_label c2); try done. by rewrite Ec.
Qed.

(** ** Two groups that are far apart *)

(** The points of a group are closer to each other than any are to the other group. *)
Definition apart (n : nat) (G : geometry) (D : dist_fun) (g : nat -> bool) : Prop :=
  (forall x y u v, x < n -> y < n -> u < n -> v < n -> g x = g y -> g u <> g v -> d_gt (D u v) (D x y) = true) /\
  (forall q x y, q < n -> x < n -> y < n -> g q = g x -> g q <> g y -> nearer G q y x = false).

(** There are none or at least [k] of both groups. *)
Definition enough (k : nat) (g : nat -> bool) (ms : list nat) : Prop :=
  forall b, length (filter (fun x => g x = b) ms) = 0 \/ k <= length (filter (fun x => g x = b) ms).

Definition pure (g : nat -> bool) (ms : list nat) : Prop := forall x y, x ∈ ms -> y ∈ ms -> g x = g y.

Lemma bool_third (a b c : bool) : a <> b -> c <> b -> c = a.
Proof. destruct a, b, c; congruence. Qed.

Section Groups.
Context (k n : nat) (G : geometry) (D : dist_fun) (g : nat -> bool).
Hypothesis (Hk : 1 <= k) (HA : apart n G D g).

Lemma ord_group c x y : c < n -> x < n -> y < n -> g y = g c -> ord (D c) x y -> g x = g c.
Proof.
  intros Hc Hx Hy Ey H. destruct (decide (g x = g c)) as [|Hn]; [done|]. unfold ord in H. rewrite (proj1 HA c y c x) in H; [done|auto..].
Qed.

Lemma closest_group c U a U' : c < n -> Forall (fun x => x < n) U -> closest (D c) U a U' -> length a <= length (filter (fun x => g x = g c) U) -> Forall (fun x => g x = g c) a.
Proof.
  intros Hc Hlt (P1 & _ & L) Hl. rewrite P1 in Hlt. rewrite Forall_app, !Forall_forall in Hlt. destruct Hlt as [Hlt1 Hlt2].
  apply Forall_forall. intros x Hx. destruct (decide (g x = g c)) as [|Hne]; [done|]. exfalso.
  destruct (decide (Exists (fun y => g y = g c) U')) as [He|He].
  - apply Exists_exists in He as (y & Hy & Ey). apply Hne, (ord_group c x y); auto.
  - rewrite P1, filter_app, app_length in Hl. assert (filter (fun y => g y = g c) U' = []) as E.
    { destruct (filter _ U') as [|y l] eqn:E; [done|]. exfalso. apply He, Exists_exists. exists y. assert (y ∈ filter (fun y => g y = g c) U') as Hy by (rewrite E; left).
      apply elem_of_list_filter in Hy. tauto. }
    rewrite E in Hl. simpl in Hl. assert (length (filter (fun y => g y = g c) a) < length a); [|lia]. by apply (filter_length_lt _ a x).
Qed.

Lemma filter_none (P : nat -> Prop) `{!forall x, Decision (P x)} l : Forall (fun x => ~ P x) l -> filter P l = [].
Proof. induction 1 as [|x l Hx _ IH]; [done|]. by rewrite filter_cons_False. Qed.

Lemma first_group k1 c1 c2 U a1 a2 U' : c1 < n -> c2 < n -> g c1 <> g c2 -> Forall (fun x => x < n) U ->
  k1 <= length (filter (fun x => g x = g c1) U) -> k1 <= length (filter (fun x => g x = g c2) U) ->
  first_parts k1 (D c1) (D c2) U a1 a2 U' -> Forall (fun x => g x = g c1) a1 /\ Forall (fun x => g x = g c2) a2.
Proof.
  intros Hc1 Hc2 Hne Hlt N1 N2 [b1 U1 b U2 b2 U3 A1 ? A2 ? _ A3 ?|b1 U1 b U2 b2 U3 A1 ? A2 ? _ A3 ?].
  - assert (Forall (fun x => g x = g c1) b1) as Q1 by (eapply closest_group; eauto; lia). split; [done|]. destruct A1 as (P1 & _). rewrite P1 in Hlt, N2. apply Forall_app in Hlt as [_ Hlt].
    rewrite filter_app, (filter_none _ b1), app_nil_l in N2; [eapply closest_group; eauto; lia|]. eapply Forall_impl; [exact Q1|]. intros x -> ?. done.
  - assert (Forall (fun x => g x = g c2) b2) as Q1 by (eapply closest_group; eauto; lia). split; [|done]. destruct A2 as (P1 & _). rewrite P1 in Hlt, N1. apply Forall_app in Hlt as [_ Hlt].
    rewrite filter_app, (filter_none _ b2), app_nil_l in N1; [eapply closest_group; eauto; lia|]. eapply Forall_impl; [exact Q1|]. intros x -> E. by rewrite E in Hne.
Qed.

Lemma closest_one c U l U' : length l = 1 -> closest (D c) U l U' -> exists x, l = [x] /\ U ≡ₚ x :: U' /\ forall y, y ∈ U -> y = x \/ ord (D c) x y.
Proof.
  destruct l as [|x [|]]; try done. intros _ (P1 & _ & L). exists x. splits; [done|done|]. intros y Hy. rewrite P1 in Hy. apply elem_of_cons in Hy as [->|Hy]; [by left|right]. apply L; [left|done].
Qed.

Lemma rest_group c1 c2 num a1 a2 U b1 b2 : c1 < n -> c2 < n -> g c1 <> g c2 -> rest_parts 1 (D c1) (D c2) num a1 a2 U b1 b2 -> Forall (fun x => x < n) U ->
  Forall (fun x => g x = g c1) a1 -> Forall (fun x => g x = g c2) a2 -> Forall (fun x => g x = g c1) b1 /\ Forall (fun x => g x = g c2) b2.
Proof.
  intros Hc1 Hc2 Hne. induction 1 as [a1 a2 U|num a1 a2 U l1 U1 l2 U2 b1 b2 Hp A1 A2 A3 A4 A5 A6 IH|num a1 a2 U l1 U1 l2 U2 b1 b2 Hp A1 A2 A3 A4 A5 A6 IH]; intros HF Q1 Q2; [done| |].
  all: apply closest_one in A1 as (x & -> & P1 & M1); [|lia]; apply closest_one in A3 as (y & -> & P2 & M2); [|lia].
  all: assert (x < n /\ y < n) as [Hx Hy] by (split; [rewrite P1 in HF|rewrite P2 in HF]; by apply Forall_cons in HF as [? _]).
  all: assert (x ∈ U /\ y ∈ U) as [HxU HyU] by (split; [rewrite P1|rewrite P2]; left).
  - unfold reach in A5. simpl in A5. apply IH; [rewrite P1 in HF; by apply Forall_cons in HF as [_ ?]| |done]. apply Forall_app. split; [done|]. apply Forall_singleton.
    destruct (decide (g x = g c1)) as [|Hxc]; [done|]. exfalso. assert (g x = g c2) as Ex by (apply bool_third with (b := g c1); auto).
    assert (g y = g c2) as Ey. { destruct (M2 x HxU) as [->|Ho]; [done|]. eapply (ord_group c2 y x); auto. }
    pose proof (proj1 HA c2 y c1 x Hc2 Hy Hc1 Hx ltac:(done) ltac:(done)) as Hgt. unfold d_gt, d_le in *. revert Hgt A5. unfold SpecFloat.SFltb, SpecFloat.SFleb.
    rewrite (compare_swap (D c2 y) (D c1 x)). destruct (SpecFloat.SFcompare (D c2 y) (D c1 x)) as [[]|]; done.
  - unfold reach in A5. simpl in A5. apply IH; [rewrite P2 in HF; by apply Forall_cons in HF as [_ ?]|done|]. apply Forall_app. split; [done|]. apply Forall_singleton.
    destruct (decide (g y = g c2)) as [|Hyc]; [done|]. exfalso. assert (g y = g c1) as Ey by (apply bool_third with (b := g c2); auto).
    assert (g x = g c1) as Ex. { destruct (M1 y HyU) as [->|Ho]; [done|]. eapply (ord_group c1 x y); auto. }
    pose proof (proj1 HA c1 x c2 y Hc1 Hx Hc2 Hy ltac:(done) ltac:(done)) as Hgt. unfold d_gt, d_le in *. revert Hgt A5. unfold SpecFloat.SFltb, SpecFloat.SFleb.
    destruct (SpecFloat.SFcompare (D c1 x) (D c2 y)) as [[]|]; done.
Qed.

Lemma split_group ms c1 c2 ms1 ms2 : 2 * k <= length ms -> NoDup ms -> Forall (fun x => x < n) ms -> enough k g ms -> ~ pure g ms ->
  centers G D ms c1 c2 -> divided k 1 (D c1) (D c2) ms c1 c2 ms1 ms2 -> pure g ms1 /\ pure g ms2.
Proof.
  intros Hl Hnd Hlt He Hnp Hc Hd. apply centers_far in Hc as (C1 & C2 & Hfar). pose proof Hlt as Hlt'. rewrite Forall_forall in Hlt'.
  assert (g c1 <> g c2) as Hne.
  { intros Eg. apply Hnp. assert (forall y, y ∈ ms -> g y = g c1) as H; [|intros x y Hx Hy; by rewrite (H x), (H y)].
    intros y Hy. destruct (decide (g y = g c1)) as [|Hn]; [done|]. exfalso. pose proof (Hfar y Hy) as Hf. rewrite (proj2 HA) in Hf; [done|auto..]. }
  assert (forall c d, c ∈ ms -> d ∈ ms -> g c <> g d -> k - 1 <= length (filter (fun x => g x = g c) (filter (fun x => x <> c1 /\ x <> c2) ms)) \/ ~ (c = c1 /\ d = c2 \/ c = c2 /\ d = c1)) as Hmany.
  { intros c d Hcm Hdm Hcd. destruct (decide (c = c1 /\ d = c2 \/ c = c2 /\ d = c1)) as [Hor|]; [left|by right].
    destruct (He (g c)) as [Hz|Hz].
    - exfalso. apply nil_length_inv in Hz. assert (c ∈ filter (fun x => g x = g c) ms) as Hin by (by apply elem_of_list_filter). rewrite Hz in Hin. by apply elem_of_nil in Hin.
    - assert (filter (fun x => g x = g c) ms ⊆+ c :: filter (fun x => g x = g c) (filter (fun x => x <> c1 /\ x <> c2) ms)) as Hs.
      { apply NoDup_submseteq; [by apply NoDup_filter|]. intros x Hx. apply elem_of_list_filter in Hx as [Ex Hx]. destruct (decide (x = c)) as [->|Hxc]; [left|right].
        apply elem_of_list_filter. split; [done|]. apply elem_of_list_filter. split; [|done].
        destruct Hor as [[-> ->]|[-> ->]]; split; auto; intros ->; congruence. }
      apply submseteq_length in Hs. simpl in Hs. lia. }
  destruct (Hmany c1 c2 C1 C2 Hne) as [M1|?]; [|tauto]. destruct (Hmany c2 c1 C2 C1) as [M2|?]; [congruence| |tauto].
  destruct Hd as (a1 & a2 & U & b1 & b2 & X1 & X2 & -> & ->).
  assert (Forall (fun x => x < n) (filter (fun x => x <> c1 /\ x <> c2) ms)) as HFf by (apply Forall_forall; intros x Hx%elem_of_list_filter; apply Hlt'; tauto).
  destruct (first_group _ _ _ _ _ _ _ (Hlt' _ C1) (Hlt' _ C2) Hne HFf M1 M2 X1) as [Q1 Q2]. apply first_parts_all in X1 as (X1 & _). rewrite X1, !Forall_app in HFf.
  destruct (rest_group _ _ _ _ _ _ _ _ (Hlt' _ C1) (Hlt' _ C2) Hne X2 ltac:(tauto) Q1 Q2) as [R1 R2]. rewrite Forall_forall in R1, R2. split.
  - assert (forall x, x ∈ c1 :: b1 -> g x = g c1) as H; [|intros x y Hx Hy; by rewrite (H x), (H y)]. intros x [->|Hx]%elem_of_cons; auto.
  - assert (forall x, x ∈ rev b2 ++ [c2] -> g x = g c2) as H; [|intros x y Hx Hy; by rewrite (H x), (H y)].
    intros x [Hx|Hx]%elem_of_app; [apply R2; by rewrite <- Permutation_rev in Hx|]. by apply elem_of_list_singleton in Hx as ->.
Qed.

Lemma pure_sub ms ms' : pure g ms -> (forall x, x ∈ ms' -> x ∈ ms) -> pure g ms'.
Proof. intros H Hs x y Hx Hy. apply H; auto. Qed.

Lemma tree_pure_sub nb ms news : 0 < nb -> hier_tree k nb G D ms news -> NoDup ms -> pure g ms -> Forall (pure g) news.
Proof. intros Hnb Ht Hnd Hp. apply Forall_forall. intros d Hd. destruct (tree_sub _ _ _ _ _ _ Hk Hnb Ht Hnd d Hd) as (_ & _ & Hs). by eapply pure_sub. Qed.

Lemma small_pure ms : enough k g ms -> length ms < 2 * k -> pure g ms.
Proof.
  intros He Hl. assert (length (filter (fun x => g x = true) ms) + length (filter (fun x => g x = false) ms) = length ms) as Hs.
  { clear. induction ms as [|x ms IH]; [done|]. rewrite !filter_cons. destruct (g x); repeat case_decide; simpl; try done; lia. }
  assert (forall b, length (filter (fun x => g x = b) ms) = 0 -> forall x, x ∈ ms -> g x <> b) as Hz.
  { intros b Hb x Hx E. apply nil_length_inv in Hb. assert (x ∈ filter (fun x => g x = b) ms) as Hin by (by apply elem_of_list_filter). rewrite Hb in Hin. by apply elem_of_nil in Hin. }
  intros x y Hx Hy. destruct (He true) as [Ht|Ht]; [|destruct (He false) as [Hf|Hf]; [|lia]].
  - pose proof (Hz _ Ht x Hx). pose proof (Hz _ Ht y Hy). destruct (g x), (g y); done.
  - pose proof (Hz _ Hf x Hx). pose proof (Hz _ Hf y Hy). destruct (g x), (g y); done.
Qed.

Lemma tree_pure ms news : hier_tree k 1 G D ms news -> NoDup ms -> Forall (fun x => x < n) ms -> enough k g ms -> Forall (pure g) news.
Proof.
  intros Ht Hnd Hlt He. destruct Ht as [|ms Hne Hs|ms c1 c2 ms1 ms2 r1 r2 Hl Hc Hd T2 T1].
  - constructor.
  - apply Forall_singleton. by apply small_pure.
  - pose proof (centers_far _ _ _ _ _ Hc) as (C1 & C2 & _). destruct (divided_sub _ _ _ _ _ _ _ _ _ (Nat.lt_0_1) Hk Hl Hnd C1 C2 Hd) as (N1 & N2 & S1 & S2 & _).
    assert (pure g ms1 /\ pure g ms2) as [Q1 Q2].
    { destruct (decide (Forall (fun x => g x = g c1) ms)) as [Hp|Hp].
      - rewrite Forall_forall in Hp. assert (pure g ms) as H by (intros x y Hx Hy; by rewrite (Hp x), (Hp y)). split; by eapply pure_sub.
      - apply (split_group ms c1 c2); auto. intros H. apply Hp, Forall_forall. intros x Hx. by apply H. }
    apply Forall_app. split; [apply (tree_pure_sub 1 ms2)|apply (tree_pure_sub 1 ms1)]; auto.
Qed.
End Groups.

(** Existing clusters, or the whole data set when there are none. *)
Lemma hier_groups cfg P V ds n G D qs log2cap k c g : hier_call cfg P V ds n G D qs k c -> sorts qs ->
  apart n G D g -> few_duplicates n D (2 * k) -> (forall ms, ms ∈ starts_of c -> enough k g ms) ->
  forall w c' w', hierarchical_clustering cfg P qs log2cap ds k false (Some c) w = Ok ((ER_OK, Some c'), w') ->
  forall i x y, i < c_k c' -> x ∈ cluster c' i -> y ∈ cluster c' i -> g x = g y.
Proof.
  intros HC Hs HA HF He w c' w' E i x y Hi Hx Hy. destruct (hier_procedure _ _ _ _ _ _ _ _ _ _ _ _ HC Hs _ _ _ E) as (r & L & F & C & A).
  pose proof (starts_fine c) as [N1 N2]. pose proof (hc_n _ _ _ _ _ _ _ _ _ _ HC) as En. rewrite En in N2. pose proof (hc_size _ _ _ _ _ _ _ _ _ _ HC) as Hk.
  pose proof (start_cells_length _ _ _ _ _ _ _ _ _ _ HC) as HL.
  assert ((N.of_nat (c_k c') <= cl_max cfg)%N) as Hmax.
  { destruct (hier_exact _ _ _ _ _ _ _ _ log2cap _ false _ HC w) as (ec' & c1 & w'' & E' & _ & _ & H). rewrite E' in E. injection E as -> -> ->. destruct H as [(_ & _ & H & _)|(? & _)]; done. }
  pose proof (forest_cover n G D k 1 _ _ ltac:(lia) Nat.lt_0_1 (hc_sane _ _ _ _ _ _ _ _ _ _ HC) HF N1 N2 F) as Hcov.
  assert (forall x, x ∈ cluster c' i -> exists d, r !! i = Some d /\ x ∈ d) as Hin.
  { clear x y Hx Hy. intros x Hx. apply elem_of_list_filter in Hx as [Hx _]. unfold label_of in Hx. destruct (cells c' !! x) as [z|] eqn:Ez; [|done]. simpl in Hx. subst z.
    pose proof (lookup_lt_Some _ _ _ Ez) as Hxn. destruct (A x ltac:(lia)) as [[Hn El]|(j & d & Hd & Hxd & _ & El)].
    - exfalso. rewrite Hcov in Hn. rewrite Ez in El. unfold starts_of in Hn. case_decide as Hz.
      + apply Hn. simpl. rewrite app_nil_r. apply elem_of_seq. lia.
      + destruct (hc_labels _ _ _ _ _ _ _ _ _ _ HC) as [?|[HV _]]; [done|]. destruct (HV x ltac:(lia)) as (z & Hz1 & Hz2). unfold start_cells in El. unfold cells in Hz1.
        destruct (c_label c) as [a|] eqn:Ea; [|done]. rewrite <- El in Hz1. injection Hz1 as <-. destruct Hz2 as [Hna|Hlt].
        * eapply (na_not_label cfg (hc_cfg _ _ _ _ _ _ _ _ _ _ HC) i (c_k c')); eauto.
        * apply Hn, elem_of_concat. exists (rev (cluster c i)). split; [|apply elem_of_list_fmap; exists i; split; [done|]; rewrite <- Permutation_rev; apply elem_of_seq; lia].
          rewrite <- Permutation_rev. apply elem_of_list_filter. split; [|apply elem_of_seq; lia]. unfold label_of, cells. rewrite Ea, <- El. done.
    - rewrite Ez in El. injection El as El. apply Nat2Z.inj in El as <-. eauto. }
  destruct (Hin x Hx) as (d & Hd & Hxd). destruct (Hin y Hy) as (d' & Hd' & Hyd). rewrite Hd in Hd'. injection Hd' as <-.
  destruct F as (rs & F & ->). apply elem_of_list_lookup_2, elem_of_concat in Hd as (r & Hdr & Hr).
  apply elem_of_list_lookup in Hr as (j & Hr). destruct (Forall2_lookup_r _ _ _ _ _ F Hr) as (ms & Hms & Ht). pose proof (elem_of_list_lookup_2 _ _ _ Hms) as Hin2. rewrite Forall_forall in N1, N2.
  pose proof (tree_pure k n G D g ltac:(lia) HA ms r Ht (N1 _ Hin2) (N2 _ Hin2) (He _ Hin2)) as Hp. rewrite Forall_forall in Hp. by apply (Hp d).
Qed.

(** ** A sorting function *)

Notation sorted_edges := (StronglySorted (fun a b : nat * double => d_gt a.2 b.2 = false)).

Lemma not_gt x y : d_nonneg x -> d_nonneg y -> d_gt x y = false <-> d_le x y = true.
Proof. intros Hx Hy. change (d_gt x y) with (d_lt y x). rewrite d_lt_le by (by apply nonneg_number). destruct (d_le x y); done. Qed.

Lemma ins_edge_sorted x l : d_nonneg x.2 -> Forall (fun y => d_nonneg y.2) l -> sorted_edges l -> sorted_edges (ins_edge x l).
Proof.
  intros Hx Hl. induction 1 as [|y l Hs IH Hy]; [by repeat constructor|]. apply Forall_cons in Hl as [Hy0 Hl]. simpl. destruct (d_lt x.2 y.2) eqn:E.
  - assert (d_le x.2 y.2 = true) as Hle. { destruct (d_le_total x.2 y.2) as [H|H]; auto. rewrite d_lt_le, H in E by (by apply nonneg_number). done. }
    constructor; [by constructor|]. constructor; [by apply not_gt|]. rewrite Forall_forall in Hy, Hl |- *. intros z Hz. apply not_gt; auto.
    apply (d_le_trans _ y.2); auto. apply not_gt; auto.
  - constructor; [by apply IH|]. rewrite ins_edge_perm. constructor; [|done]. apply E.
Qed.

Lemma sort_edges_sorts : sorts sort_edges.
Proof.
  intros w l Hl. unfold sort_edges. assert (forall a, Forall (fun y => d_nonneg y.2) a -> sorted_edges a -> sorted_edges (foldl (fun a x => ins_edge x a) a l)) as H; [|apply H; constructor].
  induction Hl as [|x l Hx Hl IH]; intros a Ha Hs; [done|]. simpl. apply IH; [|by apply ins_edge_sorted]. rewrite ins_edge_perm. by constructor.
Qed.

(** ** Deciding the hypotheses *)

Lemma all_below n f : forallb f (seq 0 n) = true -> forall i, i < n -> f i = true.
Proof. intros Hf i Hi. apply (proj1 (forallb_forall f _) Hf), in_seq. lia. Qed.

Definition no_ties_b (n : nat) (G : geometry) : bool :=
  forallb (fun q => forallb (fun x => forallb (fun y => bool_decide (x = y) || negb (nearer G q x y && nearer G q y x)) (seq 0 n)) (seq 0 n)) (seq 0 n).
Lemma no_ties_by n G : no_ties_b n G = true -> no_ties n G.
Proof.
  intros H q x y Hq Hx Hy Hne H1 H2. pose proof (all_below _ _ (all_below _ _ (all_below _ _ H q Hq) x Hx) y Hy) as H3. cbv beta in H3.
  rewrite H1, H2, bool_decide_eq_false_2 in H3 by done. discriminate H3.
Qed.
Definition no_equal_dists_b (n : nat) (D : dist_fun) : bool :=
  forallb (fun q => forallb (fun x => forallb (fun y => bool_decide (x = y) || d_gt (D q x) (D q y) || d_gt (D q y) (D q x)) (seq 0 n)) (seq 0 n)) (seq 0 n).
Lemma no_equal_dists_by n D : no_equal_dists_b n D = true -> no_equal_dists n D.
Proof.
  intros H q x y Hq Hx Hy Hne. pose proof (all_below _ _ (all_below _ _ (all_below _ _ H q Hq) x Hx) y Hy) as H3. cbv beta in H3.
  rewrite bool_decide_eq_false_2 in H3 by done. simpl in H3. by apply orb_true_iff in H3.
Qed.
Definition apart_b (n : nat) (G : geometry) (D : dist_fun) (g : nat -> bool) : bool :=
  forallb (fun x => forallb (fun y => negb (eqb (g x) (g y)) || forallb (fun u => forallb (fun v => eqb (g u) (g v) || d_gt (D u v) (D x y)) (seq 0 n)) (seq 0 n)) (seq 0 n)) (seq 0 n) &&
  forallb (fun q => forallb (fun x => forallb (fun y => negb (eqb (g q) (g x)) || eqb (g q) (g y) || negb (nearer G q y x)) (seq 0 n)) (seq 0 n)) (seq 0 n).
Lemma apart_by n G D g : apart_b n G D g = true -> apart n G D g.
Proof.
  unfold apart_b. rewrite andb_true_iff. intros [H1 H2]. split.
  - intros x y u v Hx Hy Hu Hv Exy Euv. pose proof (all_below _ _ (all_below _ _ H1 x Hx) y Hy) as H3. cbv beta in H3. rewrite Exy, eqb_reflx in H3. simpl in H3.
    pose proof (all_below _ _ (all_below _ _ H3 u Hu) v Hv) as H4. cbv beta in H4. apply orb_true_iff in H4 as [H4|H4]; [|done]. by apply eqb_prop in H4.
  - intros q x y Hq Hx Hy E1 E2. pose proof (all_below _ _ (all_below _ _ (all_below _ _ H2 q Hq) x Hx) y Hy) as H3. cbv beta in H3. rewrite E1, eqb_reflx in H3. simpl in H3.
    apply orb_true_iff in H3 as [H3|H3]; [apply eqb_prop in H3; congruence|]. by apply negb_true_iff in H3.
Qed.
Definition enough_b (k : nat) (g : nat -> bool) (ms : list nat) : bool :=
  forallb (fun b => let m := length (filter (fun x => g x = b) ms) in bool_decide (m = 0) || bool_decide (k <= m)) [true; false].
Lemma enough_by k g ms : enough_b k g ms = true -> enough k g ms.
Proof.
  intros H b. unfold enough_b in H. rewrite forallb_forall in H. specialize (H b). feed specialize H; [destruct b; simpl; auto|].
  apply orb_true_iff in H as [H%bool_decide_eq_true_1|H%bool_decide_eq_true_1]; auto.
Qed.

(** ** Particular runs *)

Lemma hier_groups_batches : exists l k g, let n := length l in
  hier_callable l k (new_clustering n) /\ apart n (eucl_geo (line l)) (eucl (line l)) g /\ few_duplicates n (eucl (line l)) (2 * k) /\
  (forall ms, ms ∈ starts_of (new_clustering n) -> enough k g ms) /\
  exists c' w', hier_line l k true (new_clustering n) world0 = Ok ((ER_OK, Some c'), w') /\
  exists i x y, i < c_k c' /\ x ∈ cluster c' i /\ y ∈ cluster c' i /\ g x <> g y.
Proof.
  exists [0; 1; 2; 100; 101; 102]%Z, 2, (fun x => bool_decide (x < 3)). intros n. split; [apply hier_callable_by; try done; simpl; lia|].
  split; [apply apart_by; by vm_compute|]. split; [apply few_duplicates_by; by vm_compute|]. split.
  { intros ms Hms. apply elem_of_list_singleton in Hms as ->. apply enough_by. by vm_compute. }
  destruct (hier_line [0; 1; 2; 100; 101; 102]%Z 2 true (new_clustering n) world0) as [[[ec [c'|]] w']|u] eqn:E.
  2,3: exfalso; by vm_compute in E. exists c', w'. vm_compute in E. injection E as <- <- <-. split; [done|]. exists 1, 2, 3.
  split; [simpl; lia|]. split; [|split; [|done]]; (apply elem_of_list_filter; split; [done|apply elem_of_seq; simpl; lia]).
Qed.

Lemma hier_three_groups : hier_callable [0; 1; 10; 11; 20; 21]%Z 2 (new_clustering 6) /\
  ends (hier_line [0; 1; 10; 11; 20; 21]%Z 2 false (new_clustering 6) world0) ER_OK 2 [1; 1; 1; 0; 0; 0]%Z 1.
Proof. split; [apply hier_callable_by; try done; simpl; lia|]. apply ends_by. by vm_compute. Qed.
