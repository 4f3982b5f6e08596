(** The built-in searches: order of ties. *)

From stdpp Require Import prelude list sorting.
From Coq Require Import NArith ZArith.
From Verif Require Import Base World Mem Digraph DigraphRep Float FloatFacts Spi Arrays AssignSpec NngSize NngGraph NngStage BatchProof Dist DistProof ScClaims2.

(** [x] is listed before [y]. *)
Definition before (l : list nat) (x y : nat) : Prop := exists a b, l = a ++ x :: b /\ y ∈ b.

(** [x] comes before [y] as neighbour of [q] among [S]: smaller squared distance,
    or the same and earlier in [S]. *)
Definition closer (d : dataset) (S : list nat) (q x y : nat) : Prop :=
  d_lt (sqd d q x) (sqd d q y) = true \/ (d_le (sqd d q x) (sqd d q y) = true /\ before S x y).

(** [x] is in the search radius. *)
Definition in_radius (d : dataset) (rad : option double) (q x : nat) : Prop :=
  match rad with None => True | Some r => d_gt (sqd d q x) (d_mul r r) = false end.

(** [c] lists the first [k] points of [S] in the radius, in order. *)
Record first_k (d : dataset) (S : list nat) (k : nat) (rad : option double) (q : nat) (c : list nat) : Prop := {
  fk_len : length c = k;
  fk_nodup : NoDup c;
  fk_in : forall x, x ∈ c -> x ∈ S /\ in_radius d rad q x;
  fk_order : forall x y, before c x y -> closer d S q x y;
  fk_rest : forall x y, x ∈ c -> y ∈ S -> in_radius d rad q y -> y ∉ c -> closer d S q x y
}.

(** [x] is the first point of [S] that is farthest from [q]. *)
Definition first_farthest (d : dataset) (S : list nat) (q x : nat) : Prop :=
  exists a b, S = a ++ x :: b /\ (forall y, y ∈ a -> d_lt (sqd d q y) (sqd d q x) = true) /\ (forall y, y ∈ b -> d_le (sqd d q y) (sqd d q x) = true).

Lemma in_radius_within d rad q x : in_radius d rad q x <-> within_opt (eucl_geo d) rad q x = true.
Proof. unfold in_radius, within_opt. destruct rad; simpl; [|done]. by rewrite negb_true_iff. Qed.
Global Instance in_radius_dec d rad q x : Decision (in_radius d rad q x).
Proof. unfold in_radius. destruct rad; apply _. Defined.

Lemma before_sorted {A} (R : relation A) (l : list A) : StronglySorted R l <-> forall a x b y, l = a ++ x :: b -> y ∈ b -> R x y.
Proof.
  split.
  - intros Hs a x b y -> Hy. apply StronglySorted_app_inv_r in Hs. inversion Hs as [|? ? ? Hf]; subst. rewrite Forall_forall in Hf. auto.
  - induction l as [|x l IH]; intros H; constructor.
    + apply IH. intros a z b y -> Hy. apply (H (x :: a) z b y); done.
    + apply Forall_forall. intros y Hy. by apply (H [] x l y).
Qed.

Section Rows.
Context (d : dataset) (n : nat).
Hypothesis (Hd : data_ok d n).
Notation Hkey := (fun q x => sqd_nonneg d n Hd q x).

Lemma ins_stable S q x l : (forall y, y ∈ l -> before S y x) -> StronglySorted (closer d S q) l -> StronglySorted (closer d S q) (ins (sqd d q) x l).
Proof.
  intros Hb. induction 1 as [|y l Hl IH Hy]; simpl; [by repeat constructor|]. destruct (d_lt (sqd d q x) (sqd d q y)) eqn:E.
  - constructor; [by constructor|]. constructor; [by left|]. rewrite Forall_forall in Hy |- *. intros z Hz. left.
    assert (d_le (sqd d q y) (sqd d q z) = true) as Hyz.
    { destruct (Hy z Hz) as [H|[H _]]; [|done]. by apply (lt_key_le (sqd d q) (Hkey q)). }
    rewrite (lt_key (sqd d q) (Hkey q)) in *. rewrite negb_true_iff in *. destruct (d_le (sqd d q z) (sqd d q x)) eqn:Ezx; [|done].
    rewrite <- E. symmetry. eapply d_le_trans; [..|exact Hyz|exact Ezx]; apply Hkey.
  - constructor; [apply IH; intros z Hz; apply Hb; by right|]. rewrite ins_perm. constructor; [|done]. right.
    rewrite (lt_key (sqd d q) (Hkey q)), negb_false_iff in E. split; [done|]. apply Hb. left.
Qed.

Lemma isort_stable S q l : StronglySorted (before S) l -> StronglySorted (closer d S q) (isort (sqd d q) l).
Proof.
  induction l as [|x l IH] using rev_ind; intros Hs; [constructor|]. rewrite isort_snoc. apply ins_stable.
  - intros y Hy. rewrite isort_perm in Hy. rewrite before_sorted in Hs. apply elem_of_list_split in Hy as (a & b & ->).
    apply (Hs a y (b ++ [x]) x); [by rewrite <- app_assoc|set_solver].
  - apply IH. by eapply StronglySorted_app_inv_l.
Qed.

Lemma filter_before (Pr : nat -> Prop) `{forall x, Decision (Pr x)} S : StronglySorted (before S) (filter Pr S).
Proof.
  assert (forall l, (forall a x b y, l = a ++ x :: b -> y ∈ b -> before S x y) -> StronglySorted (before S) (filter Pr l)) as Hx.
  { induction l as [|x l IH]; intros Hl; [constructor|]. assert (StronglySorted (before S) (filter Pr l)) as Hs.
    { apply IH. intros a z b y -> Hy. by apply (Hl (x :: a) z b y). }
    rewrite filter_cons. destruct (decide (Pr x)); [|done]. constructor; [done|]. apply Forall_forall. intros y [_ Hy]%elem_of_list_filter.
    by apply (Hl [] x l y). }
  apply Hx. intros a x b y E Hy. by exists a, b.
Qed.

Lemma nn_row_first S k rad q : NoDup S -> k <= length (filter (in_radius d rad q) S) -> first_k d S k rad q (nn_row d S k rad q).
Proof.
  intros Hnd Hk. unfold nn_row. set (l := filter _ S).
  assert (l = filter (in_radius d rad q) S) as El. { apply list_filter_iff. intros x. by rewrite in_radius_within. }
  assert (isort (sqd d q) l ≡ₚ l) as Hp by apply isort_perm.
  assert (NoDup (isort (sqd d q) l)) as Hnd'. { rewrite Hp, El. by apply NoDup_filter. }
  assert (StronglySorted (closer d S q) (isort (sqd d q) l)) as Hs. { apply isort_stable. rewrite El. apply filter_before. }
  set (s := isort (sqd d q) l) in *. assert (take k s ++ drop k s = s) as Etd by apply take_drop. constructor.
  - rewrite take_length, Hp, El. lia.
  - rewrite <- Etd in Hnd'. by apply NoDup_app in Hnd' as [? _].
  - intros x Hx. assert (x ∈ l) as Hxl. { rewrite <- Hp, <- Etd. set_solver. } rewrite El in Hxl. by apply elem_of_list_filter in Hxl as [? ?].
  - intros x y (a & b & E & Hy). rewrite before_sorted in Hs. apply (Hs a x (b ++ drop k s) y); [|set_solver]. etransitivity; [symmetry; exact Etd|]. rewrite E. by rewrite <- app_assoc.
  - intros x y Hx Hy Hr Hny. assert (y ∈ drop k s) as Hyd.
    { assert (y ∈ s) as Hys. { rewrite Hp, El. by apply elem_of_list_filter. } rewrite <- Etd in Hys. set_solver. }
    apply elem_of_list_split in Hx as (a & b & E). rewrite before_sorted in Hs. apply (Hs a x (b ++ drop k s) y); [|set_solver].
    etransitivity; [symmetry; exact Etd|]. rewrite E. by rewrite <- app_assoc.
Qed.
End Rows.

Section Search.
Context (d : dataset) (n : nat).
Hypothesis (Hd : data_ok d n).

(** Search with an object made for the search points [s] in a world [w]. *)
Lemma search_exact b s q k rad w : search_set n s -> query_list n q -> 0 < k -> k <= length (il_list s) -> b ∈ w_live w ->
  exists r w', imp_nn_search (SObj b (Some d) s) q k rad w = Ok (r, w') /\ w_live w' ≡ₚ w_live w /\ w_err w' = w_err w /\
    match r with
    | None => ~ no_fail w
    | Some (ok, nn) => ok = filter (fun v => k <= length (filter (in_radius d rad v) (il_list s))) (il_list q) /\
        exists cs, nn = concat cs /\ Forall2 (fun v c => first_k d (il_list s) k rad v c) ok cs
    end.
Proof.
  intros Hs Hq Hk Hks Hb.
  pose proof (imp_search_ok d n Hd w (SObj b (Some d) s) q k rad) as Hx. unfold Msat in Hx. simpl in Hx.
  assert (forall v, length (filter (fun x => within_opt (eucl_geo d) rad v x = true) (il_list s)) = length (filter (in_radius d rad v) (il_list s))) as Hf.
  { intros v. f_equal. apply list_filter_iff. intros x. by rewrite in_radius_within. }
  destruct (imp_nn_search (SObj b (Some d) s) q k rad w) as [[r w']|u]; simpl in Hx.
  - destruct Hx as [(L & O & E) H]; auto.
    { intros x. apply cnt_elem in Hb. destruct (decide (b = x)) as [<-|]; lia. }
    exists r, w'. split; [done|]. split; [by apply own_perm|]. split; [done|]. destruct r as [[ok nn]|]; [|done]. destruct H as [Hok Hnn].
    assert (ok = filter (fun v => k <= length (filter (in_radius d rad v) (il_list s))) (il_list q)) as Hok'.
    { rewrite Hok. unfold nn_found. apply list_filter_iff. intros v. by rewrite Hf. }
    split; [done|]. exists (nn_row d (il_list s) k rad <$> ok). split; [done|]. apply Forall2_fmap_r, Forall_Forall2_diag, Forall_forall. intros v Hv.
    rewrite Hok' in Hv. apply elem_of_list_filter in Hv as [Hv _]. apply (nn_row_first d n Hd); [apply Hs|done].
  - exfalso. apply Hx; auto. intros x. apply cnt_elem in Hb. destruct (decide (b = x)) as [<-|]; lia.
Qed.

Lemma max_exact b s q w : search_set n s -> query_list n q -> b ∈ w_live w ->
  exists is ds, imp_max_get (SObj b (Some d) s) q w = Ok (Some (is, ds), w) /\
    Forall2 (first_farthest d (il_list s)) (il_list q) is /\ ds = zip_with (fun v x => d_sqrt (sqd d v x)) (il_list q) is.
Proof.
  intros (Hs1 & Hs2 & Hs3 & Hs4) (Hq1 & Hq2 & Hq3) Hb. set (S := il_list s) in *. set (Q := il_list q) in *.
  assert (Msat none (imp_max_get (SObj b (Some d) s) q) w (fun r w' => w' = w /\ exists is ds, r = Some (is, ds) /\
    Forall2 (first_farthest d S) Q is /\ ds = zip_with (fun v x => d_sqrt (sqd d v x)) Q is)) as H.
  2:{ unfold Msat in H. destruct (imp_max_get (SObj b (Some d) s) q w) as [[r w']|u]; [|done]. destruct H as (-> & is & ds & -> & H). by exists is, ds. }
  unfold imp_max_get. apply Msat_bind. unfold Msat at 1, deref. cbn [so_blk]. rewrite decide_True by done. cbn [Rsat]. apply Msat_lift. cbn [so_ds with_ds so_set].
  assert (forall x y, d_nonneg (sqd d x y)) as Hkey by (intros; by apply (sqd_nonneg d n)).
  eapply Rsat_bind_mono with (Q := fun '(is, out) => Forall2 (first_farthest d S) Q is /\ out = zip_with (fun v x => d_sqrt (sqd d v x)) Q is).
  { apply (forR_sat0 none (fun i '(is, out) => Forall2 (first_farthest d S) (take i Q) is /\ out = zip_with (fun v x => d_sqrt (sqd d v x)) (take i Q) is)).
    - split; [constructor|]. by rewrite take_0.
    - intros i [is out] Hi' [Hf1 Hf2]. destruct (lookup_lt_is_Some_2 Q i) as [v Hv]; [lia|]. assert (v < n) as Hvn by (by eapply Forall_lookup_1 in Hq3).
      eapply Rsat_bind_mono with (Q := fun '(mx, ix) => exists x, ix = Some x /\ mx = sqd d v x /\ first_farthest d S v x).
      { apply (forR_sat0 none (fun j '(mx, ix) => (j = 0 /\ mx = d_minus1 /\ ix = None) \/ exists x, ix = Some x /\ mx = sqd d v x /\ first_farthest d (take j S) v x)).
        - by left.
        - intros j [mx ix] Hj HI. destruct (lookup_lt_is_Some_2 S j) as [y Hy]; [lia|]. rewrite (iat_ok q i v Hq2 Hv), (iat_ok s j y Hs2 Hy). cbn [Rbind].
          rewrite (sq_dist_ok d n Hd) by (done || by eapply Forall_lookup_1 in Hs3). cbn [Rbind Rsat].
          destruct HI as [(-> & -> & ->)|(x & -> & -> & l1 & l2 & El & Hl1 & Hl2)].
          + rewrite minus1_lt by apply Hkey. right. exists y. splits; auto. rewrite (take_S_r S 0 y Hy), take_0. exists [], []. splits; auto; by intros z ?%elem_of_nil.
          + rewrite (take_S_r S j y Hy), El. destruct (d_lt (sqd d v x) (sqd d v y)) eqn:E; right.
            * exists y. splits; auto. exists (l1 ++ x :: l2), []. splits; auto; [|by intros z ?%elem_of_nil]. intros z Hz.
              assert (d_le (sqd d v z) (sqd d v x) = true) as Hzx.
              { apply elem_of_app in Hz as [Hz|Hz]; [by apply (lt_key_le (sqd d v) (Hkey v)), Hl1|]. apply elem_of_cons in Hz as [->|Hz]; [by apply d_le_refl|auto]. }
              rewrite (lt_key (sqd d v) (Hkey v)), negb_true_iff in *. destruct (d_le (sqd d v y) (sqd d v z)) eqn:Eyz; [|done].
              rewrite <- E. symmetry. by eapply d_le_trans; [..|exact Eyz|exact Hzx].
            * exists x. splits; auto. exists l1, (l2 ++ [y]). splits; auto; [by rewrite <- app_assoc|]. rewrite (lt_key (sqd d v) (Hkey v)), negb_false_iff in E.
              intros z Hz. apply elem_of_app in Hz as [Hz|Hz]; [auto|]. by apply elem_of_list_singleton in Hz as ->.
        - intros [mx ix] [(E & _)|(x & H)]; [exfalso; apply Hs1; destruct S; [done|simpl in *; lia]|]. exists x. rewrite take_ge in H by lia. done. }
      intros [mx ix] (x & -> & -> & Hff). cbn [Rsat]. rewrite (take_S_r Q i v Hv). split.
      + apply Forall2_app; [done|]. by repeat constructor.
      + rewrite zip_with_app by (by eapply Forall2_length). by rewrite <- Hf2.
    - intros [is out]. rewrite take_ge by lia. done. }
  intros [is out] Hf. cbn [Rsat]. split; [done|]. exists is, out. done.
Qed.
End Search.

(** The answers of the built-in search depend on nothing but the query point. *)
Lemma builtin_steady d n : data_ok d n -> forall k rad, 0 < k -> k <= n -> steady builtin (builtin_view d n) n k rad.
Proof. intros Hd k rad H1 H2. exists (nn_row d (seq 0 n) k rad). by apply builtin_choice. Qed.

(** The squared distance as computed. *)
Lemma sq_dist_exact d n i j : data_ok d n -> i < n -> j < n -> exists v,
  sq_dist d i j = Ok v /\ sq_dist d j i = Ok v /\ d_nonneg v /\ (i = j -> v = d_zero).
Proof.
  intros Hd Hi Hj. exists (sqd d i j). rewrite (sq_dist_ok d n Hd i j Hi Hj), (sq_dist_ok d n Hd j i Hj Hi), (sqd_sym d j i).
  splits; auto; [by apply (sqd_nonneg d n)|]. intros ->. by apply (sqd_self d n).
Qed.

(** The distances of the [i]th and [j]th point of a query, in the matrix and in
    rows. *)
Lemma matrix_exact d n q w : data_ok d n -> query_list n q -> exists m,
  imp_matrix (Some d) q w = Ok (Some m, w) /\ imp_rows (Some d) q q w = Ok (Some (concat ((fun x => eucl d x <$> il_list q) <$> il_list q)), w) /\
  m = (fun xy => eucl d xy.1 xy.2) <$> pairs (il_list q).
Proof.
  intros Hd Hq. eexists. split; [by apply (imp_matrix_ok d n)|]. split; [by apply (imp_rows_ok d n)|]. done.
Qed.
