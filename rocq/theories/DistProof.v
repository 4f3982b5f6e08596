(** The built-in distance functions do what a provider promises. *)

From stdpp Require Import prelude list sorting.
From Coq Require Import NArith ZArith.
From Verif Require Import Base World Mem Digraph DigraphRep DigraphOps Float FloatFacts Spi Arrays AssignSpec NngSize NngGraph NngStage BatchProof Dist.

(** ** Squared distances *)

(** Coordinate [t] of point [i]. *)
Definition coord (d : dataset) (i t : nat) : double :=
  match ds_matrix d with None => d_zero | Some m => default d_zero (m !! (i * ds_dim d + t)) end.

(** Sum of squared coordinate differences, in double arithmetic. *)
Definition sqd (d : dataset) (i j : nat) : double :=
  foldl (fun acc t => d_add acc (d_mul (d_sub (coord d i t) (coord d j t)) (d_sub (coord d i t) (coord d j t)))) d_zero (seq 0 (ds_dim d)).

Definition eucl (d : dataset) : dist_fun := fun i j => d_sqrt (sqd d i j).

(** A data set with as many coordinates as stated, none infinite or NaN. *)
Record data_ok (d : dataset) (n : nat) : Prop := {
  dk_version : ds_version d = dataset_version;
  dk_n : ds_n d = n;
  dk_pos : n <> 0;
  dk_dim : ds_dim d <> 0;
  dk_matrix : exists m, ds_matrix d = Some m /\ n * ds_dim d <= length m /\ Forall (fun x => d_is_finite x = true) m
}.

(** Order of nearness: by squared distance; radius: compared squared. *)
Definition eucl_geo (d : dataset) : geometry := {|
  nearer := fun q x y => d_le (sqd d q x) (sqd d q y);
  within := fun r q x => negb (d_gt (sqd d q x) (d_mul r r))
|}.

Section Dist.
Context (d : dataset) (n : nat).
Hypothesis (Hd : data_ok d n).

Lemma coord_finite i t : d_is_finite (coord d i t) = true.
Proof.
  unfold coord. destruct (dk_matrix _ _ Hd) as (m & -> & _ & Hf). destruct (m !! (i * ds_dim d + t)) as [x|] eqn:E; [|done].
  simpl. by eapply Forall_lookup_1 in Hf.
Qed.

Lemma sqd_nonneg i j : d_nonneg (sqd d i j).
Proof.
  unfold sqd. assert (forall l acc, d_nonneg acc -> d_nonneg (foldl (fun acc t => d_add acc (d_mul (d_sub (coord d i t) (coord d j t)) (d_sub (coord d i t) (coord d j t)))) acc l)) as H.
  { induction l as [|t l IH]; intros acc Hacc; simpl; [done|]. apply IH. apply d_add_nonneg; [done|]. apply d_square_nonneg. apply d_sub_number; apply coord_finite. }
  by apply H.
Qed.

Lemma sqd_sym i j : sqd d i j = sqd d j i.
Proof.
  unfold sqd. generalize d_zero. induction (seq 0 (ds_dim d)) as [|t l IH]; intros acc; simpl; [done|]. rewrite IH. do 2 f_equal.
  rewrite <- (d_square_sign false). rewrite d_sub_swap. by rewrite d_square_sign.
Qed.

Lemma sqd_self i : sqd d i i = d_zero.
Proof.
  unfold sqd. induction (seq 0 (ds_dim d)) as [|t l IH]; simpl; [done|]. rewrite d_sub_self by apply coord_finite. apply IH.
Qed.

Lemma sq_dist_ok i j : i < n -> j < n -> sq_dist d i j = Ok (sqd d i j).
Proof.
  intros Hi Hj. unfold sq_dist, sqd. destruct (dk_matrix _ _ Hd) as (m & Em & Hl & _). rewrite Em. generalize d_zero.
  assert (forall k b acc, b + k <= ds_dim d -> forR k b acc (fun t acc => let! a := lget m (i * ds_dim d + t) in let! b := lget m (j * ds_dim d + t) in Ok (d_add acc (d_mul (d_sub a b) (d_sub a b)))) =
    Ok (foldl (fun acc t => d_add acc (d_mul (d_sub (coord d i t) (coord d j t)) (d_sub (coord d i t) (coord d j t)))) acc (seq b k))) as H.
  { induction k as [|k IH]; intros b acc Hb; simpl; [done|].
    assert (forall a, a < n -> lget m (a * ds_dim d + b) = Ok (coord d a b)) as Hg.
    { intros a Ha. unfold coord. rewrite Em. destruct (lookup_lt_is_Some_2 m (a * ds_dim d + b)) as [x Hx]; [nia|]. rewrite Hx. by apply lget_ok. }
    rewrite !Hg by done. simpl. apply IH. lia. }
  intros z. apply H. lia.
Qed.

Lemma eucl_geo_ok : geometry_ok (eucl_geo d).
Proof.
  constructor; simpl.
  - intros q x. apply d_le_refl, sqd_nonneg.
  - intros q x y. apply d_le_total; apply sqd_nonneg.
  - intros q x y z. apply d_le_trans; apply sqd_nonneg.
  - intros r q x y Hn Hw. apply negb_true_iff. apply negb_true_iff in Hw. destruct (d_gt (sqd d q x) (d_mul r r)) eqn:E; [|done].
    rewrite (d_gt_mono _ (sqd d q y) _ (sqd_nonneg _ _) (sqd_nonneg _ _) Hn E) in Hw. done.
Qed.
End Dist.

(** ** Sorting by insertion *)

(** Insert behind the elements that are not farther. *)
Fixpoint ins (key : nat -> double) (x : nat) (l : list nat) : list nat :=
  match l with
  | [] => [x]
  | y :: l' => if d_lt (key x) (key y) then x :: l else y :: ins key x l'
  end.
Definition isort (key : nat -> double) (l : list nat) : list nat := foldl (fun acc x => ins key x acc) [] l.

(** The neighbours the search finds for [q] among [S]: the [k] first of the
    points within the radius, sorted by distance, ties in the order of [S]. *)
Definition nn_row (d : dataset) (S : list nat) (k : nat) (rad : option double) (q : nat) : list nat :=
  take k (isort (sqd d q) (filter (fun x => within_opt (eucl_geo d) rad q x = true) S)).

Section Sort.
Context (key : nat -> double).
Hypothesis (Hkey : forall x, d_nonneg (key x)).

Definition by_key : relation nat := fun x y => d_le (key x) (key y) = true.

Lemma by_key_trans x y z : by_key x y -> by_key y z -> by_key x z.
Proof. apply d_le_trans; apply Hkey. Qed.

Lemma lt_key x y : d_lt (key x) (key y) = negb (d_le (key y) (key x)).
Proof. apply d_lt_le; apply nonneg_number, Hkey. Qed.

Lemma lt_key_le x y : d_lt (key x) (key y) = true -> by_key x y.
Proof. rewrite lt_key, negb_true_iff. intros H. unfold by_key. destruct (d_le_total (key x) (key y) (Hkey _) (Hkey _)) as [?|?]; congruence. Qed.

Lemma ins_perm x l : ins key x l ≡ₚ x :: l.
Proof. induction l as [|y l IH]; simpl; [done|]. destruct (d_lt (key x) (key y)); [done|]. rewrite IH. apply perm_swap. Qed.

Lemma ins_length x l : length (ins key x l) = S (length l).
Proof. by rewrite ins_perm. Qed.

Lemma ins_sorted x l : StronglySorted by_key l -> StronglySorted by_key (ins key x l).
Proof.
  induction 1 as [|y l Hl IH Hy]; simpl; [by repeat constructor|]. destruct (d_lt (key x) (key y)) eqn:E.
  - constructor; [by constructor|]. apply lt_key_le in E. constructor; [done|]. eapply Forall_impl; [exact Hy|]. intros z Hz. by eapply by_key_trans.
  - constructor; [done|]. rewrite ins_perm. constructor; [|done]. unfold by_key. rewrite lt_key, negb_false_iff in E. done.
Qed.

Lemma isort_snoc l x : isort key (l ++ [x]) = ins key x (isort key l).
Proof. unfold isort. by rewrite foldl_app. Qed.

Lemma isort_perm l : isort key l ≡ₚ l.
Proof. induction l as [|x l IH] using rev_ind; [done|]. rewrite isort_snoc, ins_perm, IH. by rewrite Permutation_app_comm. Qed.

Lemma isort_sorted l : StronglySorted by_key (isort key l).
Proof. induction l as [|x l IH] using rev_ind; [constructor|]. rewrite isort_snoc. by apply ins_sorted. Qed.

Lemma ins_app x a b : (forall y, y ∈ a -> d_lt (key x) (key y) = false) -> ins key x (a ++ b) = a ++ ins key x b.
Proof.
  induction a as [|y a IH]; intros H; simpl; [done|]. rewrite (H y) by left. f_equal. apply IH. intros z Hz. apply H. by right.
Qed.

Lemma ins_all x b : (forall y, y ∈ b -> d_lt (key x) (key y) = true) -> ins key x b = x :: b.
Proof. destruct b as [|y b]; intros H; simpl; [done|]. by rewrite (H y) by left. Qed.

(** In a sorted list, an element not before the last of [a] is not before any. *)
Lemma last_not_lt x a y : StronglySorted by_key (a ++ [y]) -> d_lt (key x) (key y) = false -> forall z, z ∈ a ++ [y] -> d_lt (key x) (key z) = false.
Proof.
  intros Hs Hl z Hz. rewrite lt_key in *. apply negb_false_iff. apply negb_false_iff in Hl. apply elem_of_app in Hz as [Hz|Hz].
  - assert (by_key z y) as Hzy.
    { clear Hl. induction a as [|b a IH]; [by apply elem_of_nil in Hz|]. simpl in Hs. inversion Hs as [|? ? Hs' Hb]; subst. apply elem_of_cons in Hz as [-> |Hz]; [|auto].
      rewrite Forall_forall in Hb. apply Hb. apply elem_of_app. right. left. }
    eapply (by_key_trans z y x); done.
  - apply elem_of_list_singleton in Hz as ->. done.
Qed.

Lemma take_ins k x l : take k (ins key x l) = take k (ins key x (take k l)).
Proof.
  revert k. induction l as [|y l IH]; intros k; [by rewrite take_nil|]. destruct k as [|k]; [done|]. simpl. destruct (d_lt (key x) (key y)); simpl; f_equal; [|apply IH].
  destruct k as [|k]; [done|]. simpl. f_equal. rewrite take_take. by rewrite Nat.min_l by lia.
Qed.

(** Inserting in front of the last element of a full list drops that one. *)
Lemma take_ins_lt k x a y : length a = k -> d_lt (key x) (key y) = true -> take (S k) (ins key x (a ++ [y])) = ins key x a.
Proof.
  intros <- E. induction a as [|z a IH].
  - simpl. by rewrite E.
  - simpl. destruct (d_lt (key x) (key z)); simpl; f_equal; [|done]. f_equal. rewrite take_app_alt by done. done.
Qed.

Lemma take_ins_ge k x a y : StronglySorted by_key (a ++ [y]) -> length a = k -> d_lt (key x) (key y) = false -> take (S k) (ins key x (a ++ [y])) = a ++ [y].
Proof.
  intros Hs Hl E. rewrite <- (app_nil_r (a ++ [y])) at 1. rewrite ins_app by (by apply (last_not_lt x a y)). simpl. apply take_app_alt. rewrite app_length. simpl. lia.
Qed.

(** *** The insertion loop *)

Lemma add_dist_ok x off a b acc sc ix h1 h2 r1 r2 : StronglySorted by_key (a ++ b) -> (forall y, y ∈ b -> d_lt (key x) (key y) = true) ->
  sc = (Some <$> (key <$> a)) ++ h1 :: (Some <$> (key <$> b)) ++ r1 -> ix = (Some <$> acc) ++ (Some <$> a) ++ h2 :: (Some <$> b) ++ r2 -> off = length acc ->
  exists sc' ix', add_dist (key x) x (length a) off sc ix = Ok (sc', ix') /\
    sc' = (Some <$> (key <$> ins key x (a ++ b))) ++ r1 /\ ix' = (Some <$> (acc ++ ins key x (a ++ b))) ++ r2.
Proof.
  revert b sc ix h1 h2. induction a as [|p a IH] using rev_ind; intros b sc ix h1 h2 Hs Hb -> -> ->.
  - rewrite !fmap_nil, !app_nil_l. cbn [length add_dist]. rewrite cset_ok by (cbn [length]; lia). cbn [Rbind]. rewrite cset_ok by (rewrite app_length, fmap_length; cbn [length]; lia).
    cbn [Rbind]. do 2 eexists. split; [done|].
    rewrite ins_all by done. split; [done|]. rewrite insert_app_r_alt by (rewrite fmap_length; lia). rewrite fmap_length, Nat.sub_diag. simpl.
    rewrite fmap_app. simpl. by rewrite <- app_assoc.
  - rewrite app_length. simpl. rewrite Nat.add_1_r. simpl.
    assert (forall X (l : list X) (y : X) t, ((l ++ [y]) ++ t) !! length l = Some y) as Hlk.
    { intros X l y t. rewrite <- app_assoc. rewrite lookup_app_r by lia. by rewrite Nat.sub_diag. }
    assert (cget ((Some <$> (key <$> a ++ [p])) ++ h1 :: (Some <$> (key <$> b)) ++ r1) (length a) = Ok (key p)) as ->.
    { apply cget_ok. rewrite !fmap_app. simpl. replace (length a) with (length (Some <$> (key <$> a))) at 1 by (by rewrite !fmap_length). apply Hlk. }
    simpl. destruct (d_lt (key x) (key p)) eqn:E.
    + rewrite cset_ok by (rewrite !app_length, !fmap_length, app_length; simpl; lia). simpl.
      assert (cget ((Some <$> acc) ++ (Some <$> a ++ [p]) ++ h2 :: (Some <$> b) ++ r2) (length acc + length a) = Ok p) as ->.
      { apply cget_ok. rewrite lookup_app_r by (rewrite fmap_length; lia). rewrite fmap_length. replace (length acc + length a - length acc) with (length (Some <$> a)) by (rewrite fmap_length; lia).
        rewrite fmap_app. simpl. apply Hlk. }
      simpl. rewrite cset_ok by (rewrite !app_length, !fmap_length, app_length; simpl; rewrite ?app_length, ?fmap_length; simpl; lia). simpl.
      destruct (IH (p :: b) (<[S (length a):=Some (key p)]> ((Some <$> (key <$> a ++ [p])) ++ h1 :: (Some <$> (key <$> b)) ++ r1))
        (<[length acc + S (length a):=Some p]> ((Some <$> acc) ++ (Some <$> a ++ [p]) ++ h2 :: (Some <$> b) ++ r2)) (Some (key p)) (Some p)) as (sc' & ix' & E' & H1 & H2).
      * by rewrite <- app_assoc in Hs.
      * intros y Hy. apply elem_of_cons in Hy as [-> |Hy]; auto.
      * rewrite insert_app_r_alt by (rewrite !fmap_length, app_length; simpl; lia). rewrite !fmap_length, app_length. simpl.
        replace (S (length a) - (length a + 1)) with 0 by lia. simpl. rewrite !fmap_app. simpl. by rewrite <- app_assoc.
      * rewrite insert_app_r_alt by (rewrite fmap_length; lia). rewrite fmap_length. replace (length acc + S (length a) - length acc) with (S (length a)) by lia.
        f_equal. rewrite insert_app_r_alt by (rewrite fmap_length, app_length; simpl; lia). rewrite fmap_length, app_length. simpl.
        replace (S (length a) - (length a + 1)) with 0 by lia. simpl. rewrite !fmap_app. simpl. by rewrite <- app_assoc.
      * done.
      * exists sc', ix'. split; [done|]. rewrite <- app_assoc. done.
    + rewrite cset_ok by (rewrite !app_length, !fmap_length, app_length; simpl; lia). simpl.
      rewrite cset_ok by (rewrite !app_length, !fmap_length, app_length; simpl; rewrite ?app_length, ?fmap_length; simpl; lia). simpl. do 2 eexists. split; [done|].
      assert (ins key x ((a ++ [p]) ++ b) = (a ++ [p]) ++ x :: b) as ->.
      { rewrite ins_app; [by rewrite ins_all|]. apply last_not_lt; [|done]. by eapply StronglySorted_app_inv_l. }
      split.
      * rewrite insert_app_r_alt by (rewrite !fmap_length, app_length; simpl; lia). rewrite !fmap_length, app_length. simpl.
        replace (S (length a) - (length a + 1)) with 0 by lia. simpl. rewrite !fmap_app. simpl. by rewrite <- !app_assoc.
      * rewrite insert_app_r_alt by (rewrite fmap_length; lia). rewrite fmap_length. replace (length acc + S (length a) - length acc) with (S (length a)) by lia.
        rewrite insert_app_r_alt by (rewrite fmap_length, app_length; simpl; lia). rewrite fmap_length, app_length. simpl.
        replace (S (length a) - (length a + 1)) with 0 by lia. simpl. rewrite !fmap_app. simpl. by rewrite <- !app_assoc.
Qed.
End Sort.

Lemma filled_hole {A} (c : list (option A)) xs : filled c xs -> length xs < length c -> exists h r, c = (Some <$> xs) ++ h :: r.
Proof. intros [r ->] H. rewrite app_length, fmap_length in H. destruct r as [|h r]; [simpl in H; lia|]. eauto. Qed.

Lemma filled_prefix {A} (c : list (option A)) xs ys : filled c (xs ++ ys) -> filled c xs.
Proof. intros [r ->]. exists ((Some <$> ys) ++ r). by rewrite fmap_app, <- app_assoc. Qed.

Lemma add_dist_row key (Hkey : forall x, d_nonneg (key x)) x a acc sc ix : StronglySorted (by_key key) a ->
  filled sc (key <$> a) -> length a < length sc -> filled ix (acc ++ a) -> length acc + length a < length ix ->
  exists sc' ix', add_dist (key x) x (length a) (length acc) sc ix = Ok (sc', ix') /\
    length sc' = length sc /\ length ix' = length ix /\ filled sc' (key <$> ins key x a) /\ filled ix' (acc ++ ins key x a).
Proof.
  intros Hs Hsc Hl Hix Hli. destruct (filled_hole sc (key <$> a)) as (h1 & r1 & E1); [done|by rewrite fmap_length|].
  destruct (filled_hole ix (acc ++ a)) as (h2 & r2 & E2); [done|by rewrite app_length|].
  destruct (add_dist_ok key Hkey x (length acc) a [] acc sc ix h1 h2 r1 r2) as (sc' & ix' & E & -> & ->); [by rewrite app_nil_r|..|done|].
  - intros y Hy. by apply elem_of_nil in Hy.
  - by rewrite E1.
  - rewrite E2. rewrite fmap_app, <- app_assoc. done.
  - rewrite app_nil_r in *. do 2 eexists. split; [exact E|]. rewrite E1, E2. rewrite !app_length, !fmap_length, !app_length, !ins_length by done. simpl. splits; try lia; by eexists.
Qed.

Lemma iat_ok s i x : length (il_list s) = s.1 -> il_list s !! i = Some x -> iat s i = Ok x.
Proof.
  unfold iat, il_list. destruct s as [len [l|]]; simpl; [intros _; apply lget_ok|]. intros _ H. apply lookup_seq in H as [-> _]. done.
Qed.

Section Search.
Context (d : dataset) (n : nat).
Hypothesis (Hd : data_ok d n).
Notation G := (eucl_geo d).

Lemma nn_query_ok s query k rad acc sc ix : let S := il_list s in
  length S = s.1 -> Forall (fun x => x < n) S -> query < n -> 0 < k -> k <= length S -> length sc = k -> filled ix acc -> length acc + k <= length ix ->
  exists found sc' ix', nn_query d s query k (length acc) rad (sc, ix) = Ok (found, (sc', ix')) /\
    length sc' = length sc /\ length ix' = length ix /\
    found = k `min` length (filter (fun x => within_opt G rad query x = true) S) /\
    filled ix' (acc ++ nn_row d S k rad query).
Proof.
  intros S Hl Hn Hq Hk HkS Hsc Hacc Hcap. set (key := sqd d query). assert (forall x, d_nonneg (key x)) as Hkey by (intros; by apply (sqd_nonneg d n)).
  set (W := fun l : list nat => filter (fun x => within_opt G rad query x = true) l). fold (W S).
  assert (forall i, i < length S -> exists x, S !! i = Some x /\ iat s i = Ok x /\ sq_dist d query x = Ok (key x)) as Hat.
  { intros i Hi. destruct (lookup_lt_is_Some_2 S i Hi) as [x Hx]. exists x. splits; auto; [by apply iat_ok|]. apply (sq_dist_ok d n Hd); [done|]. by eapply Forall_lookup_1 in Hn. }
  assert (forall i x, S !! i = Some x -> take (i + 1) S = take i S ++ [x]) as Htk by (intros i x Hx; rewrite Nat.add_1_r; by apply take_S_r).
  assert (forall l x, W (l ++ [x]) = W l ++ if within_opt G rad query x then [x] else []) as HW.
  { intros l x. unfold W. rewrite filter_app, filter_cons, filter_nil. destruct (within_opt G rad query x) eqn:E; by case_decide. }
  (* state after the first i points when fewer than k were found so far *)
  set (I1 := fun i '(found, (sc', ix')) => length sc' = k /\ length ix' = length ix /\ found = length (W (take i S)) /\ found <= k /\
     filled sc' (key <$> isort key (W (take i S))) /\ filled ix' (acc ++ isort key (W (take i S)))).
  set (I2 := fun i '(sc', ix') => length sc' = k /\ length ix' = length ix /\ k <= length (W (take i S)) /\
     filled sc' (key <$> take k (isort key (W (take i S)))) /\ filled ix' (acc ++ take k (isort key (W (take i S))))).
  assert (forall l, length (isort key l) = length l) as Hil by (intros l; by rewrite isort_perm).
  assert (I1 0 (0, (sc, ix))) as H0.
  { unfold I1. rewrite take_0. simpl. splits; auto; [lia|apply filled_nil|by rewrite app_nil_r]. }
  enough (Rsat none (nn_query d s query k (length acc) rad (sc, ix)) (fun '(found, (sc', ix')) => length sc' = length sc /\ length ix' = length ix /\
    found = k `min` length (W S) /\ filled ix' (acc ++ nn_row d S k rad query))) as Hen.
  { apply Rsat_none_ok in Hen as ([found [sc' ix']] & E & H). exists found, sc', ix'. done. }
  unfold nn_query. eapply Rsat_bind_mono with (Q := fun '(i, fs) => I1 i fs /\ (i = length S \/ (i <= length S /\ fs.1 = k))).
  { destruct rad as [r|].
    - cbn zeta. eapply Rsat_bind_mono.
      + apply (loopR_sat none I1 (fun '(i, fs) => I1 i fs /\ i <= length S /\ fs.1 = k)); [exact H0|]. intros i [found [sc1 ix1]] Hi HI. simpl in Hi.
        destruct (decide (found < k)) as [Hf|Hf].
        * destruct (Hat i) as (x & Hx & -> & E); [lia|]. cbn [Rbind]. rewrite E. cbn [Rbind]. destruct HI as (A1 & A2 & A3 & A4 & A5 & A6).
          destruct (d_gt (key x) (d_mul r r)) eqn:Eg.
          -- cbn [Rsat]. unfold I1. rewrite <- Nat.add_1_r. rewrite (Htk i x Hx), HW. simpl. fold key. rewrite Eg. simpl. rewrite app_nil_r. splits; auto.
          -- destruct (add_dist_row key Hkey x (isort key (W (take i S))) acc sc1 ix1) as (sc2 & ix2 & E2 & B1 & B2 & B3 & B4); [by apply isort_sorted|done|rewrite Hil; lia|done|rewrite Hil; lia|].
             rewrite Hil, <- A3 in E2. rewrite E2. cbn [Rbind Rsat]. unfold I1. rewrite <- (Nat.add_1_r i). rewrite (Htk i x Hx), HW. simpl. fold key. rewrite Eg. simpl.
             rewrite isort_snoc, app_length. simpl. splits; auto; lia.
        * simpl. split; [exact HI|]. split; [lia|]. destruct HI as (_ & _ & _ & ? & _). lia.
      + intros [fs|[i fs]] HI; simpl.
        * split; [|left; done]. simpl in HI. done.
        * destruct HI as (? & ? & ?). split; [done|]. right. done.
    - eapply Rsat_bind_mono.
      + apply (forR_sat0 none (fun i st => I1 i (i, st)) k (sc, ix) _ (fun st => I1 k (k, st))); [exact H0| |auto]. intros i [sc1 ix1] Hi HI.
        destruct (Hat i) as (x & Hx & -> & E); [lia|]. cbn [Rbind]. rewrite E. cbn [Rbind]. destruct HI as (A1 & A2 & A3 & A4 & A5 & A6).
        destruct (add_dist_row key Hkey x (isort key (W (take i S))) acc sc1 ix1) as (sc2 & ix2 & E2 & B1 & B2 & B3 & B4); [by apply isort_sorted|done|rewrite Hil; lia|done|rewrite Hil; lia|].
        rewrite Hil, <- A3 in E2. rewrite E2. cbn [Rbind Rsat]. unfold I1. rewrite <- (Nat.add_1_r i). rewrite (Htk i x Hx), HW. simpl.
        rewrite isort_snoc, app_length. simpl. splits; auto; lia.
      + intros [sc1 ix1] HI. simpl. split; [exact HI|]. right. split; [lia|done]. }
  intros [i [found [sc1 ix1]]] [HI Hd1]. destruct HI as (A1 & A2 & A3 & A4 & A5 & A6).
  destruct (decide (i = length S)) as [-> |Hi].
  { (* all points seen *)
    rewrite <- Hl, Nat.sub_diag. simpl. rewrite (take_ge S) in * by lia. splits; auto; [lia..|].
    unfold nn_row. fold key. fold (W S). rewrite take_ge by (rewrite Hil; lia). done. }
  destruct Hd1 as [?|[Hile Ef]]; [done|]. simpl in Ef. subst found.
  eapply Rsat_bind_mono with (Q := I2 (i + (s.1 - i))).
  { apply (forR_sat none I2).
    { unfold I2. splits; auto; [lia|..]; rewrite take_ge by (rewrite Hil; lia); done. }
    intros j [sc2 ix2] Hj (B1 & B2 & B3 & B4 & B5). destruct (Hat j) as (x & Hx & -> & E); [lia|]. cbn [Rbind]. rewrite E. cbn [Rbind].
    set (row := take k (isort key (W (take j S)))) in *.
    assert (length row = k) as Hrl by (unfold row; rewrite take_length, Hil; lia).
    assert (exists a y, row = a ++ [y] /\ length a = k - 1) as (a & y & Er & Hal).
    { destruct row as [|y a _] using rev_ind; [simpl in Hrl; lia|]. exists a, y. split; [done|]. rewrite app_length in Hrl. simpl in Hrl. lia. }
    assert (StronglySorted (by_key key) row) as Hrs.
    { pose proof (isort_sorted key Hkey (W (take j S))) as Hs0. rewrite <- (take_drop k (isort key (W (take j S)))) in Hs0. by eapply StronglySorted_app_inv_l. }
    assert (cget sc2 (k - 1) = Ok (key y)) as ->.
    { apply cget_ok. eapply filled_lookup; [exact B4|]. rewrite Er, fmap_app, lookup_app_r by (rewrite fmap_length; lia). rewrite fmap_length, Hal, Nat.sub_diag. done. }
    cbn [Rbind]. assert (d_ge (key x) (key y) = negb (d_lt (key x) (key y))) as Ege by (rewrite lt_key by done; by rewrite negb_involutive).
    assert (within_opt G rad query y = true) as Hyw.
    { assert (y ∈ W (take j S)) as Hyin by (rewrite <- (isort_perm key), <- (take_drop k (isort key _)); apply elem_of_app; left; fold row; rewrite Er; apply elem_of_app; right; left).
      unfold W in Hyin. by apply elem_of_list_filter in Hyin as [? _]. }
    assert (take k (isort key (W (take (j + 1) S))) = if d_lt (key x) (key y) then ins key x a else row) as Enew.
    { rewrite (Htk j x Hx), HW. destruct (within_opt G rad query x) eqn:Ew.
      - rewrite isort_snoc, take_ins. fold row. rewrite Er. replace k with (Datatypes.S (k - 1)) by lia. destruct (d_lt (key x) (key y)) eqn:El.
        + by apply take_ins_lt.
        + apply take_ins_ge; [done|by rewrite <- Er|done|done].
      - rewrite app_nil_r. fold row. destruct (d_lt (key x) (key y)) eqn:El; [|done]. exfalso. apply lt_key_le in El; [|done].
        destruct rad as [r|]; [|done]. pose proof (within_near _ (eucl_geo_ok d n Hd) r query x y El Hyw) as Hwx. unfold within_opt in Ew. congruence. }
    assert (k <= length (W (take (j + 1) S))) as Hk1.
    { rewrite (Htk j x Hx), HW, app_length. lia. }
    rewrite Ege. rewrite Nat.add_1_r in Enew, Hk1. destruct (d_lt (key x) (key y)) eqn:El; cbn [negb].
    - rewrite Er in B4, B5. rewrite fmap_app in B4. rewrite app_assoc in B5. apply filled_prefix in B4. apply filled_prefix in B5.
      destruct (add_dist_row key Hkey x a acc sc2 ix2) as (sc3 & ix3 & E3 & C1 & C2 & C3 & C4); [rewrite Er in Hrs; by eapply StronglySorted_app_inv_l|done|lia|done|lia|].
      rewrite Hal in E3. rewrite E3. cbn [Rsat]. unfold I2. rewrite Enew. splits; auto; lia.
    - cbn [Rsat]. unfold I2. rewrite Enew. splits; auto. }
  intros [sc3 ix3] HI2. replace (i + (s.1 - i)) with (length S) in HI2 by lia.
  destruct HI2 as (B1 & B2 & B3 & B4 & B5). rewrite (take_ge S) in * by lia. simpl. splits; [lia|lia|lia|exact B5].
Qed.
End Search.

Lemma StronglySorted_at {A} (R : relation A) l i j x y : StronglySorted R l -> i < j -> l !! i = Some x -> l !! j = Some y -> R x y.
Proof.
  intros Hs Hij Hi Hj. apply elem_of_list_split_length in Hi as (l1 & l2 & -> & ->). apply StronglySorted_app_inv_r in Hs. inversion Hs as [|? ? _ Hf]; subst.
  rewrite Forall_forall in Hf. apply Hf. rewrite lookup_app_r in Hj by lia. destruct (j - length l1) as [|q] eqn:E; [lia|]. simpl in Hj. by eapply elem_of_list_lookup_2.
Qed.

Lemma filter_both {A} (P : A -> Prop) `{forall x, Decision (P x)} (l : list A) : l ≡ₚ filter P l ++ filter (fun x => ~ P x) l.
Proof.
  induction l as [|x l IH]; [done|]. rewrite !filter_cons. destruct (decide (P x)) as [Hp|Hp].
  - rewrite (decide_False (P := ~ P x)) by tauto. simpl. by rewrite <- IH.
  - rewrite decide_True by done. rewrite <- Permutation_middle. by rewrite <- IH.
Qed.

Section Rows.
Context (d : dataset) (n : nat).
Hypothesis (Hd : data_ok d n).
Notation G := (eucl_geo d).

Lemma nn_row_within S k rad q : Forall (fun x => within_opt G rad q x = true) (nn_row d S k rad q).
Proof.
  unfold nn_row. apply Forall_take. apply Forall_forall. intros x. rewrite isort_perm, elem_of_list_filter. by intros [? _].
Qed.

Lemma nn_row_nearest S k rad q : k <= length (filter (fun x => within_opt G rad q x = true) S) -> nearest G S k q (nn_row d S k rad q).
Proof.
  intros Hk. pose proof (nn_row_within S k rad q) as Hw. unfold nn_row in *. set (F := filter (fun x => within_opt G rad q x = true) S) in *.
  assert (forall x, d_nonneg (sqd d q x)) as Hkey by (intros; by apply (sqd_nonneg d n)).
  pose proof (isort_sorted (sqd d q) Hkey F) as Hs. pose proof (isort_perm (sqd d q) F) as Hp. set (s := isort (sqd d q) F) in *.
  remember (filter (fun x => ~ within_opt G rad q x = true) S) as N eqn:EN.
  assert (S ≡ₚ take k s ++ drop k s ++ N) as HS.
  { rewrite app_assoc, take_drop, Hp, EN. apply filter_both. }
  constructor.
  - rewrite take_length. rewrite Hp. lia.
  - rewrite HS. by apply submseteq_inserts_r.
  - intros i j x y Hij Hx Hy. apply lookup_take_Some in Hx as [Hx _]. apply lookup_take_Some in Hy as [Hy _]. exact (StronglySorted_at _ s i j x y Hs Hij Hx Hy).
  - intros rest Hr x y Hx Hy. rewrite HS in Hr. apply Permutation_app_inv_l in Hr. rewrite Hr in Hy. apply elem_of_app in Hy as [Hy|Hy].
    + rewrite <- (take_drop k s) in Hs. exact (elem_of_StronglySorted_app (by_key (sqd d q)) _ _ x y Hs Hx Hy).
    + rewrite EN in Hy. apply elem_of_list_filter in Hy as [Hy _]. rewrite Forall_forall in Hw. specialize (Hw x Hx).
      destruct (near_total _ (eucl_geo_ok d n Hd) q x y) as [?|Hn]; [done|]. exfalso. apply Hy. destruct rad as [r|]; [|done].
      by apply (within_near _ (eucl_geo_ok d n Hd) r q y x).
Qed.

Lemma nn_row_length S k rad q : k <= length (filter (fun x => within_opt G rad q x = true) S) -> length (nn_row d S k rad q) = k.
Proof. intros H. by apply nn_row_nearest in H as [? _ _ _]. Qed.
End Rows.

(** ** The provider *)

(** Object views for the data set [d] of [n] points. *)
Definition builtin_view (d : dataset) (n : nat) : pview builtin := {|
  nn_set := fun o : p_nn builtin => il_list (so_set o); nn_blk := fun o : p_nn builtin => [so_blk o];
  nn_good := fun o : p_nn builtin => so_ds o = Some d /\ search_set n (so_set o);
  mx_set := fun o : p_mx builtin => il_list (so_set o); mx_blk := fun o : p_mx builtin => [so_blk o];
  mx_good := fun o : p_mx builtin => so_ds o = Some d /\ search_set n (so_set o)
|}.

Section Provider.
Context (d : dataset) (n : nat).
Hypothesis (Hd : data_ok d n).
Notation G := (eucl_geo d).
Notation V := (builtin_view d n).

Lemma Msat_deref B b w : 1 <= cnt b (w_live w) -> Msat B (deref b) w (fun _ w' => w' = w).
Proof. intros H. unfold Msat, deref. rewrite decide_True by (by apply cnt_elem). done. Qed.

(** Queries with enough neighbours, as the search reports them. *)
Definition nn_found (S Q : list nat) (k : nat) (rad : option double) : list nat :=
  filter (fun q => k <= length (filter (fun x => within_opt G rad q x = true) S)) Q.

Lemma imp_search_ok w o q k rad : nn_good V o -> query_list n q -> 0 < k -> k <= length (nn_set V o) -> (forall x, cnt x (nn_blk V o) <= cnt x (w_live w)) ->
  Msat none (p_nn_search builtin o q k rad) w (fun r w' => peffect w w' [] /\
    match r with
    | None => ~ no_fail w
    | Some (ok, nn) => ok = nn_found (il_list (so_set o)) (il_list q) k rad /\ nn = concat (nn_row d (il_list (so_set o)) k rad <$> ok)
    end).
Proof.
  intros [Eds (Hs1 & Hs2 & Hs3 & Hs4)] (Hq1 & Hq2 & Hq3) Hk HkS Hb. simpl in *. unfold imp_nn_search. apply Msat_bind.
  eapply Msat_mono; [apply Msat_deref|].
  { specialize (Hb (so_blk o)). simpl in Hb. rewrite decide_True in Hb by done. lia. }
  intros _ w0 ->. apply Msat_bind. apply Msat_malloc_arr.
  { intros w1 L1 O1 E1 T1 F1. apply Msat_ret. splits; auto. unfold peffect. splits; auto. }
  intros w1 b L1 O1 E1 T1. set (S := il_list (so_set o)) in *. set (Q := il_list q) in *.
  apply Msat_bind. apply Msat_lift. rewrite Eds. cbn [with_ds a_cells].
  set (I := fun (i : nat) '((ok, (sc, ix)) : list nat * scratch) => length sc = k /\ length ix = q.1 * k /\ ok = nn_found S (take i Q) k rad /\ filled ix (concat (nn_row d S k rad <$> ok))).
  assert (forall ok, Forall (fun q => k <= length (filter (fun x => within_opt G rad q x = true) S)) ok -> length (concat (nn_row d S k rad <$> ok)) = length ok * k) as Hcl.
  { intros ok. induction 1 as [|v ok Hv _ IH]; [done|]. rewrite fmap_cons. cbn [concat length]. rewrite app_length, IH, (nn_row_length d n Hd) by done. lia. }
  assert (forall l, Forall (fun q => k <= length (filter (fun x => within_opt G rad q x = true) S)) (nn_found S l k rad)) as Hff.
  { intros l. apply Forall_forall. intros v Hv. unfold nn_found in Hv. by apply elem_of_list_filter in Hv as [? _]. }
  eapply Rsat_bind_mono with (Q := I q.1).
  { apply (forR_sat0 none I); [|  |auto].
    - unfold I. splits; [by unfold fresh; rewrite replicate_length|by unfold fresh; rewrite replicate_length|done|apply filled_nil].
    - intros i [ok [sc ix]] Hi (H1 & H2 & H3 & H4). destruct (lookup_lt_is_Some_2 Q i) as [v Hv]; [lia|].
      rewrite (iat_ok q i v Hq2 Hv). cbn [Rbind]. assert (v < n) as Hvn by (by eapply Forall_lookup_1 in Hq3).
      assert (length (concat (nn_row d S k rad <$> ok)) = length ok * k) as Hlen by (apply Hcl; rewrite H3; apply Hff).
      assert (length ok <= i) as Hoki. { rewrite H3. unfold nn_found. etransitivity; [apply filter_length|]. rewrite take_length. lia. }
      destruct (nn_query_ok d n Hd (so_set o) v k rad (concat (nn_row d S k rad <$> ok)) sc ix) as (found & sc' & ix' & E & C1 & C2 & C3 & C4); auto.
      { rewrite Hlen, H2. nia. }
      rewrite Hlen in E. rewrite E. cbn [Rbind].
      assert (take (Datatypes.S i) Q = take i Q ++ [v]) as Etk by (by apply take_S_r).
      assert (nn_found S (take (Datatypes.S i) Q) k rad = if decide (found = k) then ok ++ [v] else ok) as Enf.
      { rewrite Etk. unfold nn_found. rewrite filter_app, filter_cons, filter_nil. fold (nn_found S (take i Q) k rad). rewrite <- H3. fold S in C3. destruct (decide (found = k)).
        - rewrite decide_True by lia. done.
        - rewrite decide_False by lia. by rewrite app_nil_r. }
      cbn [Rsat]. fold S in C4. destruct (decide (found = k)) as [Ef|Ef]; unfold I; rewrite Enf; splits; auto; try congruence.
      + rewrite fmap_app, concat_app. simpl. by rewrite app_nil_r.
      + by eapply filled_prefix. }
  intros [ok [sc ix]] (H1 & H2 & H3 & H4). rewrite take_ge in H3 by lia.
  assert (length (concat (nn_row d S k rad <$> ok)) = length ok * k) as Hlen by (apply Hcl; rewrite H3; apply Hff).
  eapply Rsat_bind_mono with (Q := fun nn => nn = concat (nn_row d S k rad <$> ok)).
  { apply (forR_sat0 none (fun i acc => acc = take i (concat (nn_row d S k rad <$> ok)))); [done| |].
    - intros i acc Hi ->. destruct (lookup_lt_is_Some_2 (concat (nn_row d S k rad <$> ok)) i) as [x Hx]; [lia|].
      rewrite (cget_ok _ _ x) by (by eapply filled_lookup). simpl. symmetry. by apply take_S_r.
    - intros acc ->. apply take_ge. lia. }
  intros nn ->. cbn [Rsat]. apply Msat_bind, Msat_free_arr; [simpl; intros x; specialize (O1 x); simpl in O1; lia|]. intros w2 L2 C2 E2 _. apply Msat_ret.
  split; [|done]. unfold peffect. splits; [wl|blk|congruence].
Qed.

Lemma Msat_imp_init B s w : Msat B (imp_init (Some d) s) w (fun r w' =>
  match r with
  | None => peffect w w' [] /\ ~ no_fail w
  | Some o => peffect w w' [so_blk o] /\ so_ds o = Some d /\ so_set o = s
  end).
Proof.
  unfold imp_init, Msat, malloc, Mbind. destruct (w_fail w (w_next w)) eqn:E; simpl.
  - split; [|intros Hn; rewrite Hn in E; [done|lia]]. unfold peffect. splits; [split; simpl; [done|lia]|by intros x|done].
  - split; [|done]. split; [split; simpl; [done|lia]|]. split; [|done]. intros x. simpl. destruct (decide (w_next w = x)); lia.
Qed.

Lemma Msat_imp_close (B : ub -> Prop) (o : sobj) w : (forall x, cnt x [so_blk o] <= cnt x (w_live w)) \/ B BadFree -> Msat B (imp_close o) w (fun r w' => r = true /\
  wle w w' /\ w_err w' = w_err w /\ forall x, cnt x (w_live w) = cnt x [so_blk o] + cnt x (w_live w')).
Proof.
  intros Hb. unfold imp_close, Msat, free, Mbind. destruct (decide (so_blk o ∈ w_live w)) as [Hi|Hi]; simpl.
  - split; [done|]. split; [split; simpl; [done|lia]|]. split; [done|]. intros x. rewrite cnt_remove. apply cnt_elem in Hi. destruct (decide (so_blk o = x)) as [<-|]; lia.
  - destruct Hb as [Hb|Hb]; [|done]. exfalso. apply Hi, cnt_elem. specialize (Hb (so_blk o)). simpl in Hb. rewrite decide_True in Hb by done. lia.
Qed.

(** Collecting values in a loop. *)
Lemma collect_ok {A} (f : nat -> list A -> R (list A)) (h : nat -> list A) m b : (forall i acc, b <= i < b + m -> f i acc = Ok (acc ++ h i)) ->
  forall acc, forR m b acc f = Ok (acc ++ concat (h <$> seq b m)).
Proof.
  revert b. induction m as [|m IH]; intros b H acc; simpl; [by rewrite app_nil_r|]. rewrite H by lia. cbn [Rbind]. rewrite IH by (intros; apply H; lia). by rewrite <- app_assoc.
Qed.

Lemma list_of_index {A B} (g : A -> B) (f : nat -> B) (l : list A) b : (forall i x, l !! i = Some x -> f (b + i) = g x) -> f <$> seq b (length l) = g <$> l.
Proof.
  revert b. induction l as [|x l IH]; intros b H; simpl; [done|]. f_equal; [rewrite <- (Nat.add_0_r b); by apply (H 0 x)|]. apply IH. intros i y Hy.
  replace (S b + i) with (b + S i) by lia. by apply H.
Qed.

Lemma concat_single {A B} (f : A -> B) l : concat ((fun x => [f x]) <$> l) = f <$> l.
Proof. induction l; simpl; [done|]. by f_equal. Qed.

Lemma imp_rows_ok q c w : query_list n q -> query_list n c ->
  imp_rows (Some d) q c w = Ok (Some (concat ((fun x => eucl d x <$> il_list c) <$> il_list q)), w).
Proof.
  intros (_ & Hq2 & Hq3) (_ & Hc2 & Hc3). unfold imp_rows, lift, with_ds.
  set (at' := fun (l : list nat) i => default 0 (l !! i)).
  rewrite (collect_ok _ (fun a => (fun b => eucl d (at' (il_list q) a) (at' (il_list c) b)) <$> seq 0 c.1)).
  - cbn [Rbind app]. do 4 f_equal. rewrite <- Hq2. apply (list_of_index (fun x => eucl d x <$> il_list c)). intros i x Hx. simpl. rewrite <- Hc2.
    apply list_of_index. intros j y Hy. cbn [Nat.add]. unfold at'. by rewrite Hx, Hy.
  - intros i acc Hi. rewrite (collect_ok _ (fun b => [eucl d (at' (il_list q) i) (at' (il_list c) b)])); [by rewrite concat_single|]. intros j acc' Hj.
    destruct (lookup_lt_is_Some_2 (il_list q) i) as [x Hx]; [lia|]. destruct (lookup_lt_is_Some_2 (il_list c) j) as [y Hy]; [lia|].
    rewrite (iat_ok q i x), (iat_ok c j y) by done. cbn [Rbind]. unfold at'. rewrite Hx, Hy. simpl.
    rewrite (sq_dist_ok d n Hd); [done|by eapply Forall_lookup_1 in Hq3|by eapply Forall_lookup_1 in Hc3].
Qed.

Lemma fmap_concat' {A B} (f : A -> B) (ls : list (list A)) : f <$> concat ls = concat ((fun l : list A => f <$> l) <$> ls).
Proof. induction ls as [|l ls IH]; [done|]. simpl. by rewrite fmap_app, IH. Qed.

Lemma pairs_index (l : list nat) : concat ((fun a => (fun b => (default 0 (l !! a), default 0 (l !! b))) <$> seq (a + 1) (length l - (a + 1))) <$> seq 0 (length l)) = pairs l.
Proof.
  induction l as [|x l IH]; simpl; [done|]. f_equal.
  - rewrite Nat.sub_0_r. rewrite (list_of_index (fun y => (x, y))); [done|]. intros i y Hy. simpl. by rewrite Hy.
  - rewrite <- IH. f_equal. rewrite <- fmap_S_seq, <- list_fmap_compose. apply list_fmap_ext. intros i a _. unfold compose. simpl.
    rewrite <- fmap_S_seq, <- list_fmap_compose. done.
Qed.

Lemma imp_matrix_ok q w : query_list n q -> imp_matrix (Some d) q w = Ok (Some ((fun xy => eucl d xy.1 xy.2) <$> pairs (il_list q)), w).
Proof.
  intros (_ & Hq2 & Hq3). unfold imp_matrix, lift, with_ds.
  set (l := il_list q) in *. set (at' := fun i => default 0 (l !! i)).
  rewrite (collect_ok _ (fun a => (fun b => eucl d (at' a) (at' b)) <$> seq (a + 1) (q.1 - (a + 1)))).
  - cbn [Rbind app]. do 3 f_equal. rewrite <- pairs_index, <- Hq2. rewrite fmap_concat', <- list_fmap_compose. f_equal. apply list_fmap_ext. intros i a _. unfold compose.
    rewrite <- list_fmap_compose. done.
  - intros i acc Hi. rewrite (collect_ok _ (fun b => [eucl d (at' i) (at' b)])); [by rewrite concat_single|]. intros j acc' Hj.
    destruct (lookup_lt_is_Some_2 l i) as [x Hx]; [lia|]. destruct (lookup_lt_is_Some_2 l j) as [y Hy]; [lia|].
    rewrite (iat_ok q i x), (iat_ok q j y) by done. cbn [Rbind]. unfold at'. rewrite Hx, Hy. simpl.
    rewrite (sq_dist_ok d n Hd); [done|by eapply Forall_lookup_1 in Hq3|by eapply Forall_lookup_1 in Hq3].
Qed.

Lemma minus1_lt x : d_nonneg x -> d_lt d_minus1 x = true.
Proof. destruct x; simpl; try done; intros ->; done. Qed.

Lemma imp_max_ok B o q w : mx_good V o -> query_list n q -> (forall x, cnt x [so_blk o] <= cnt x (w_live w)) \/ B BadFree ->
  Msat B (imp_max_get o q) w (fun r w' => w' = w /\ exists is ds, r = Some (is, ds) /\ far_ok G (eucl d) (il_list (so_set o)) (il_list q) is ds).
Proof.
  intros [Eds (Hs1 & Hs2 & Hs3 & Hs4)] (Hq1 & Hq2 & Hq3) Hb. unfold imp_max_get. apply Msat_bind.
  unfold Msat at 1, deref. destruct (decide (so_blk o ∈ w_live w)) as [Hi|Hi].
  2:{ destruct Hb as [Hb|Hb]; [|done]. exfalso. apply Hi, cnt_elem. specialize (Hb (so_blk o)). simpl in Hb. rewrite decide_True in Hb by done. lia. }
  cbn [Rsat]. apply Msat_lift. rewrite Eds. cbn [with_ds]. set (S := il_list (so_set o)) in *. set (Q := il_list q) in *.
  assert (forall x y, d_nonneg (sqd d x y)) as Hkey by (intros; by apply (sqd_nonneg d n)).
  eapply Rsat_bind_mono with (Q := fun '(is, out) => far_ok G (eucl d) S Q is out).
  { apply (forR_sat0 B (fun i '(is, out) => far_ok G (eucl d) S (take i Q) is out)).
    - split; constructor.
    - intros i [is out] Hi' [Hf1 Hf2]. destruct (lookup_lt_is_Some_2 Q i) as [v Hv]; [lia|]. assert (v < n) as Hvn by (by eapply Forall_lookup_1 in Hq3).
      eapply Rsat_bind_mono with (Q := fun '(mx, ix) => exists x, ix = Some x /\ mx = sqd d v x /\ x ∈ S /\ forall y, y ∈ S -> nearer G v y x = true).
      { apply (forR_sat0 B (fun j '(mx, ix) => (j = 0 /\ mx = d_minus1 /\ ix = None) \/ exists x, ix = Some x /\ mx = sqd d v x /\ x ∈ S /\ forall y, y ∈ take j S -> nearer G v y x = true)).
        - by left.
        - intros j [mx ix] Hj HI. destruct (lookup_lt_is_Some_2 S j) as [y Hy]; [lia|]. rewrite (iat_ok q i v Hq2 Hv), (iat_ok (so_set o) j y Hs2 Hy). cbn [Rbind].
          rewrite (sq_dist_ok d n Hd) by (done || by eapply Forall_lookup_1 in Hs3). cbn [Rbind Rsat]. pose proof (elem_of_list_lookup_2 _ _ _ Hy) as HyS.
          destruct HI as [(-> & -> & ->)|(x & -> & -> & Hx & Hall)].
          + rewrite minus1_lt by apply Hkey. right. exists y. splits; auto. rewrite (take_S_r S 0 y Hy), take_0. intros z Hz%elem_of_list_singleton. subst z. simpl. by apply d_le_refl.
          + rewrite (take_S_r S j y Hy). destruct (d_lt (sqd d v x) (sqd d v y)) eqn:E; right.
            * exists y. splits; auto. rewrite d_lt_le, negb_true_iff in E by (by apply nonneg_number). assert (nearer G v x y = true) as Hxy.
              { destruct (near_total _ (eucl_geo_ok d n Hd) v x y) as [?|Hn]; [done|]. simpl in Hn. congruence. }
              intros z Hz. apply elem_of_app in Hz as [Hz|Hz]; [eapply (near_trans _ (eucl_geo_ok d n Hd)); eauto|]. apply elem_of_list_singleton in Hz as ->.
              apply (near_refl _ (eucl_geo_ok d n Hd)).
            * exists x. splits; auto. rewrite d_lt_le, negb_false_iff in E by (by apply nonneg_number).
              intros z Hz. apply elem_of_app in Hz as [Hz|Hz]; [auto|]. apply elem_of_list_singleton in Hz as ->. done.
        - intros [mx ix] [(E & _)|(x & H)]; [exfalso; apply Hs1; destruct S; [done|simpl in *; lia]|]. exists x. rewrite take_ge in H by lia. done. }
      intros [mx ix] (x & -> & -> & Hx & Hall). cbn [Rsat]. rewrite (take_S_r Q i v Hv). unfold far_ok. split.
      + apply Forall2_app; [done|]. by repeat constructor.
      + rewrite zip_with_app by (by eapply Forall2_length). apply Forall2_app; [done|]. by repeat constructor.
    - intros [is out]. rewrite take_ge by lia. done. }
  intros [is out] Hf. cbn [Rsat]. split; [done|]. eauto.
Qed.

(** ** Result *)

Lemma peffect_refl w : peffect w w [].
Proof. unfold peffect. splits; auto using own_refl. Qed.

Lemma builtin_ok : provider_ok builtin V (Some d) n G (eucl d).
Proof.
  constructor.
  - destruct Hd as [H1 H2 H3 H4 (m & H5 & _)]. simpl. unfold imp_check, is_initialized_data_set. rewrite H5, !bool_decide_eq_true_2 by congruence. done.
  - by apply Hd.
  - intros w s Hs. simpl. eapply Msat_mono; [apply Msat_imp_init|]. intros [o|] w'; simpl; [|tauto]. intros (He & Hds & Hset). splits; auto; congruence.
  - intros w o q k rad Ho Hq Hk HkS Hb. eapply Msat_mono; [by apply imp_search_ok|]. intros [[ok nn]|] w' [He H]; (split; [done|]); [|done].
    destruct H as [-> ->]. split; [done|]. exists (nn_row d (il_list (so_set o)) k rad <$> nn_found (il_list (so_set o)) (il_list q) k rad). split; [done|].
    apply Forall2_fmap_r, Forall_Forall2_diag, Forall_forall. intros v Hv. unfold nn_found in Hv. apply elem_of_list_filter in Hv as [Hv _].
    split; [by apply (nn_row_nearest d n Hd)|apply nn_row_within].
  - intros w o Ho Hb. eapply Msat_mono; [apply Msat_imp_close; by left|]. intros r w' (_ & ? & ? & ?). auto.
  - intros w q c Hq Hc. simpl. unfold Msat. rewrite imp_rows_ok by done. simpl. split; [apply peffect_refl|done].
  - intros w q Hq _. simpl. unfold Msat. rewrite imp_matrix_ok by done. simpl. split; [apply peffect_refl|done].
  - intros w s Hs. simpl. eapply Msat_mono; [apply Msat_imp_init|]. intros [o|] w'; simpl; [|tauto]. intros (He & Hds & Hset). splits; auto; congruence.
  - intros w o q Ho Hq Hb. eapply Msat_mono; [apply imp_max_ok; [done|done|by left]|]. intros r w' (-> & is & ds & -> & Hf). split; [apply peffect_refl|done].
  - intros w o Ho Hb. eapply Msat_mono; [apply Msat_imp_close; by left|]. intros r w' (_ & ? & ? & ?). auto.
Qed.

Lemma builtin_reliable : provider_reliable builtin V (Some d) n.
Proof.
  constructor.
  - intros w s Hs Hn. eapply Msat_mono; [apply Msat_imp_init|]. intros [o|] w'; simpl; [done|tauto].
  - intros w o q k rad Ho Hq Hk HkS Hn. simpl. destruct (decide (so_blk o ∈ w_live w)) as [Hi|Hi].
    + eapply Msat_mono; [apply Msat_weaken, imp_search_ok; auto|].
      * intros x. simpl. apply cnt_elem in Hi. destruct (decide (so_blk o = x)) as [<-|]; lia.
      * intros [r|] w' [_ H]; done.
    + unfold Msat, imp_nn_search, Mbind, deref. by rewrite decide_False.
  - intros w o Ho Hn. eapply Msat_mono; [apply Msat_imp_close; by right|]. intros r w' (? & _). done.
  - intros w q c Hq Hc _. simpl. unfold Msat. by rewrite imp_rows_ok.
  - intros w q Hq _ _. simpl. unfold Msat. by rewrite imp_matrix_ok.
  - intros w s Hs Hn. eapply Msat_mono; [apply Msat_imp_init|]. intros [o|] w'; simpl; [done|tauto].
  - intros w o q Ho Hq Hn. eapply Msat_mono; [apply imp_max_ok; [done|done|by right]|]. intros r w' (_ & is & ds & -> & _). done.
  - intros w o Ho Hn. eapply Msat_mono; [apply Msat_imp_close; by right|]. intros r w' (? & _). done.
Qed.

(** The built-in search returns the same neighbours of a point whatever else is
    queried. *)
Lemma builtin_choice k rad : 0 < k -> k <= n -> nn_choice builtin V n k rad (fun v c => c = nn_row d (seq 0 n) k rad v).
Proof.
  intros Hk Hkn w o q ok nn w' Hg Hset Hq Hb Ep. assert (k <= length (il_list (so_set o))) as HkS by (change (il_list (so_set o)) with (nn_set V o); by rewrite Hset, seq_length).
  pose proof (imp_search_ok w o q k rad Hg Hq Hk HkS Hb) as Hs. unfold Msat in Hs. rewrite Ep in Hs. destruct Hs as (_ & -> & ->).
  change (il_list (so_set o)) with (nn_set V o). rewrite Hset. eexists. split; [done|]. apply Forall2_fmap_r, Forall_Forall2_diag, Forall_forall. intros v Hv.
  split; [|done]. unfold nn_found in Hv. apply elem_of_list_filter in Hv as [Hv _]. by apply (nn_row_length d n Hd).
Qed.
End Provider.
