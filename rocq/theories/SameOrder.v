(** Clusterings without estimated radius depend on the order of the distances only. *)

From stdpp Require Import prelude list sorting.
From Coq Require Import NArith ZArith Floats.SpecFloat.
From Verif Require Import Base World Mem Digraph DigraphRep Float FloatFacts Spi Dist Options Arrays GraphSpec SeedSpec AssignSpec SeedsExcl
  Nng NngGraph NngSize NngAssign NngStage TypeCount TypeRows Batch BatchSpec BatchProof OptionsProof NngClustering Hier
  ScSpec ScProof ClusSpec ScFacts Approx ScClaims ScClaims2 DistProof Example1 Example2 FailClaims Report Same SameClaims SameHier SameDist.

(** ** The search with two data sets *)

Section Search.
Context (d d' : dataset).
(** Distances of the same pair of points. *)
Definition paired (q : nat) (x y : double) : Prop := exists j, sq_dist d q j = Ok x /\ sq_dist d' q j = Ok y.
Context (Hlt : forall q x y u v, paired q x y -> paired q u v -> d_lt x u = d_lt y v) (Hge : forall q x y u v, paired q x y -> paired q u v -> d_ge x u = d_ge y v).
Definition rad_like (r r' : double) : Prop := d_le r d_zero = d_le r' d_zero /\ forall q x y, paired q x y -> d_gt x (d_mul r r) = d_gt y (d_mul r' r').

(** The cells below [f], except [h], hold distances from [q]. *)
Definition scr (q f h : nat) (a b : list (option double)) : Prop :=
  length a = length b /\ forall i x y, i < f -> i <> h -> a !! i = Some (Some x) -> b !! i = Some (Some y) -> paired q x y.
Definition sts (q f h k : nat) (a b : scratch) : Prop := scr q f h a.1 b.1 /\ length a.1 = k /\ a.2 = b.2.
Lemma rR_paired q j : rR (paired q) (sq_dist d q j) (sq_dist d' q j).
Proof. intros x y E1 E2. by exists j. Qed.
Lemma scr_set q f h x y a b a' b' : scr q f h a b -> paired q x y -> cset a h x = Ok a' -> cset b h y = Ok b' -> forall h', scr q f h' a' b' /\ length a' = length a.
Proof.
  intros [Hl H] Hx E1 E2 h'. apply cset_inv in E1 as (L1 & ->). apply cset_inv in E2 as (L2 & ->). split; [|by rewrite insert_length]. split; [by rewrite !insert_length|].
  intros i u v Hi Hn. destruct (decide (h = i)) as [->|Hne]; [rewrite !list_lookup_insert by done; by intros [= <-] [= <-]|]. rewrite !list_lookup_insert_ne by done. intros. by eapply H.
Qed.
Lemma order_add q f k x y j pos off a b : sts q f pos k a b -> pos < f -> paired q x y -> rR (sts q f f k) (add_dist x j pos off a.1 a.2) (add_dist y j pos off b.1 b.2).
Proof.
  destruct a as [a ix], b as [b ix']. intros (Hs & Hk & Hi) Hp Hx. cbn [fst snd] in *. subst ix'. revert a b ix Hs Hk Hp. induction pos as [|p IH]; intros a b ix Hs Hk Hp; cbn [add_dist].
  - intros [r1 i1] [r2 i2] E1 E2. destruct (cset a 0 x) as [a'|] eqn:A; [|done]. destruct (cset b 0 y) as [b'|] eqn:B; [|done]. cbn [Rbind] in E1, E2.
    destruct (cset ix off j) as [ix'|] eqn:I; [|done]. cbn [Rbind] in E1, E2. injection E1 as <- <-. injection E2 as <- <-. destruct (scr_set _ _ _ _ _ _ _ _ _ Hs Hx A B f) as [S L]. split; [done|]. cbn [fst snd]. split; [congruence|done].
  - destruct (cget a p) as [u|] eqn:A; [|apply rR_bad1]. destruct (cget b p) as [v|] eqn:B; [|apply rR_bad2]. cbn [Rbind]. apply cget_inv in A, B.
    assert (paired q u v) as Huv by (eapply (proj2 Hs); [| |exact A|exact B]; lia). rewrite <- (Hlt _ _ _ _ _ Hx Huv). destruct (d_lt x u).
    + destruct (cset a (S p) u) as [a'|] eqn:A'; [|apply rR_bad1]. destruct (cset b (S p) v) as [b'|] eqn:B'; [|apply rR_bad2]. cbn [Rbind].
      destruct (cget ix (off + p)) as [z|]; [|apply rR_bad1]. cbn [Rbind]. destruct (cset ix (off + S p) z) as [ix'|]; [|apply rR_bad1]. cbn [Rbind].
      destruct (scr_set _ _ _ _ _ _ _ _ _ Hs Huv A' B' p) as [S L]. apply IH; [done|congruence|lia].
    + destruct (cset a (S p) x) as [a'|] eqn:A'; [|apply rR_bad1]. destruct (cset b (S p) y) as [b'|] eqn:B'; [|apply rR_bad2]. cbn [Rbind].
      destruct (cset ix (off + S p) j) as [ix'|]; [|apply rR_bad1]. cbn [Rbind]. apply rR_ok. destruct (scr_set _ _ _ _ _ _ _ _ _ Hs Hx A' B' f) as [S L]. split; [done|]. cbn [fst snd]. split; [congruence|done].
Qed.
(** With all cells below [f] in order, the next one may be written. *)
Lemma sts_next q f k a b : sts q f f k a b -> sts q (S f) f k a b.
Proof. intros ((Hl & H) & Hk & Hi). split; [|done]. split; [done|]. intros i x y Hf Hn. apply H; lia. Qed.
Lemma sts_hole q f h k a b : sts q f f k a b -> sts q f h k a b.
Proof. intros ((Hl & H) & Hk & Hi). split; [|done]. split; [done|]. intros i x y Hf Hn. apply H; lia. Qed.
Lemma sts_any q f k a b : length a.1 = length b.1 -> length a.1 = k -> a.2 = b.2 -> f = 0 -> sts q f f k a b.
Proof. intros H1 H2 H3 ->. split; [|done]. split; [done|]. lia. Qed.

(** State after the first part. *)
Definition firsts (q k n : nat) (x y : nat * (nat * scratch)) : Prop :=
  x.1 = y.1 /\ x.2.1 = y.2.1 /\ sts q x.2.1 x.2.1 k x.2.2 y.2.2 /\ (x.1 < n -> x.2.1 = k).
Lemma order_first q (s : indices) k off rad rad' a b : op rad_like rad rad' -> length a.1 = length b.1 -> length a.1 = k -> a.2 = b.2 ->
  rR (firsts q k s.1)
    (match rad with
     | Some r =>
         let! e := loopR (T := nat * (nat * scratch)) s.1 0 (0, a) (fun i '(found, (sc, ix)) =>
           if decide (found < k) then
             let! j := iat s i in
             let! x := sq_dist d q j in
             if d_gt x (d_mul r r) then Ok (inl (found, (sc, ix)))
             else let! st := add_dist x j found off sc ix in Ok (inl (found + 1, st))
           else Ok (inr (i, (found, (sc, ix))))) in
         Ok (match e with inl fs => (s.1, fs) | inr r => r end)
     | None =>
         let! st := forR k 0 a (fun i '(sc, ix) =>
           let! j := iat s i in
           let! x := sq_dist d q j in
           add_dist x j i off sc ix) in
         Ok (k, (k, st))
     end)
    (match rad' with
     | Some r =>
         let! e := loopR (T := nat * (nat * scratch)) s.1 0 (0, b) (fun i '(found, (sc, ix)) =>
           if decide (found < k) then
             let! j := iat s i in
             let! x := sq_dist d' q j in
             if d_gt x (d_mul r r) then Ok (inl (found, (sc, ix)))
             else let! st := add_dist x j found off sc ix in Ok (inl (found + 1, st))
           else Ok (inr (i, (found, (sc, ix))))) in
         Ok (match e with inl fs => (s.1, fs) | inr r => r end)
     | None =>
         let! st := forR k 0 b (fun i '(sc, ix) =>
           let! j := iat s i in
           let! x := sq_dist d' q j in
           add_dist x j i off sc ix) in
         Ok (k, (k, st))
     end).
Proof.
  intros Hr Hl Hk Hi. pose proof (sts_any q 0 k a b Hl Hk Hi eq_refl) as H0. destruct rad as [r|], rad' as [r'|]; try done.
  - eapply (rR_bind (sm (fun x y => x.1 = y.1 /\ sts q x.1 x.1 k x.2 y.2 /\ x.1 <= k) (fun x y => firsts q k s.1 x y))).
    + apply rR_loopR; [cbn [fst snd]; split; [done|]; split; [done|lia]|]. intros i [f [sc ix]] [f' [sc' ix']] (Hf & Hs & Hle). cbn [fst snd] in *. subst f'.
      destruct (decide (f < k)) as [Hfk|Hfk].
      * destruct (iat s i) as [j|]; [|apply rR_bad1]. cbn [Rbind]. eapply rR_bind; [apply rR_paired|]. intros x y Hx. rewrite <- (proj2 Hr _ _ _ Hx). destruct (d_gt x (d_mul r r)); [by apply rR_ok|].
        eapply rR_bind; [apply (order_add q (S f) k x y j f off (sc, ix) (sc', ix')); [by apply sts_next|lia|done]|]. intros st st' Hst. apply rR_ok. cbn [sm fst snd]. rewrite Nat.add_1_r. split; [done|]. split; [done|lia].
      * apply rR_ok. cbn [sm]. unfold firsts. cbn [fst snd]. splits; try done. intros _. lia.
    + intros [[f st]|[i [f st]]] [[f' st']|[i' [f' st']]] H; try done; apply rR_ok; [|done]. cbn [sm fst snd] in H. destruct H as (-> & H & _). unfold firsts. cbn [fst snd]. splits; try done. lia.
  - eapply (rR_bind (sts q k k k)).
    + assert (forall m i a b, i + m = k -> sts q i i k a b -> rR (sts q k k k)
        (forR m i a (fun i '(sc, ix) => let! j := iat s i in let! x := sq_dist d q j in add_dist x j i off sc ix))
        (forR m i b (fun i '(sc, ix) => let! j := iat s i in let! x := sq_dist d' q j in add_dist x j i off sc ix))) as Hm; [|by apply Hm].
      clear -Hlt. induction m as [|m IH]; intros i a b Hi Hs; cbn [forR]; [apply rR_ok; assert (i = k) as Hik by lia; by rewrite Hik in Hs|].
      destruct a as [sc ix], b as [sc' ix']. apply (rR_bind (sts q (S i) (S i) k)).
      * destruct (iat s i) as [j|]; [|apply rR_bad1]. cbn [Rbind]. eapply rR_bind; [apply rR_paired|]. intros x y Hx. apply (order_add q (S i) k x y j i off (sc, ix) (sc', ix')); [by apply sts_next|lia|done].
      * intros st st' Hst. apply IH; [lia|done].
    + intros st st' Hst. apply rR_ok. unfold firsts. cbn [fst snd]. splits; done.
Qed.
Definition ends_like (k : nat) (x y : nat * scratch) : Prop := x.1 = y.1 /\ length x.2.1 = length y.2.1 /\ length x.2.1 = k /\ x.2.2 = y.2.2.
Lemma order_query s q k off rad rad' a b : op rad_like rad rad' -> length a.1 = length b.1 -> length a.1 = k -> a.2 = b.2 ->
  rR (ends_like k) (nn_query d s q k off rad a) (nn_query d' s q k off rad' b).
Proof.
  intros Hr Hl Hk Hi. unfold nn_query. cbv zeta. eapply rR_bind; [by apply order_first|].
  intros [i [f st]] [i' [f' st']] (H1 & H2 & H3 & H4). cbn [fst snd] in *. subst i' f'.
  eapply (rR_bind (sts q f f k)).
  - assert (forall m j (a b : scratch), (0 < m -> f = k) -> sts q f f k a b -> rR (sts q f f k)
      (forR m j a (fun i '(sc, ix) => let! j := iat s i in let! x := sq_dist d q j in let! last := cget sc (k - 1) in if d_ge x last then Ok (sc, ix) else add_dist x j (k - 1) off sc ix))
      (forR m j b (fun i '(sc, ix) => let! j := iat s i in let! x := sq_dist d' q j in let! last := cget sc (k - 1) in if d_ge x last then Ok (sc, ix) else add_dist x j (k - 1) off sc ix))) as Hm.
    2: { apply Hm; [|done]. intros. apply H4. lia. }
    clear -Hlt Hge. induction m as [|m IH]; intros j a b Hf Hs; cbn [forR]; [by apply rR_ok|]. specialize (Hf ltac:(lia)). subst f.
    destruct a as [sc ix], b as [sc' ix']. apply (rR_bind (sts q k k k)); [|intros; by apply IH].
    destruct (iat s j) as [l|]; [|apply rR_bad1]. cbn [Rbind]. eapply rR_bind; [apply rR_paired|]. intros x y Hx.
    destruct (cget sc (k - 1)) as [u|] eqn:A; [|apply rR_bad1]. destruct (cget sc' (k - 1)) as [v|] eqn:B; [|apply rR_bad2]. cbn [Rbind]. apply cget_inv in A, B.
    pose proof Hs as ((_ & Hc) & Hk & Hi). cbn [fst snd] in *. subst ix'. assert (0 < k) as Hpos by (apply lookup_lt_Some in A; lia).
    assert (paired q u v) as Huv by (eapply Hc; [| |exact A|exact B]; lia). rewrite <- (Hge _ _ _ _ _ Hx Huv). destruct (d_ge x u); [by apply rR_ok|].
    apply (order_add q k k x y l (k - 1) off (sc, ix) (sc', ix)); [by apply sts_hole|lia|done].
  - intros x y ((Hxl & _) & Hxk & Hxi). apply rR_ok. split; [done|]. cbn [fst snd]. by splits.
Qed.

Definition so_order (o o' : sobj) : Prop := so_ds o = Some d /\ so_ds o' = Some d' /\ so_set o = so_set o'.
Definition ds_order (a b : option dataset) : Prop := a = Some d /\ b = Some d'.
Context (Hck : imp_check (Some d) = imp_check (Some d')) (Hnum : imp_num (Some d) = imp_num (Some d')).
Lemma order_provider f1 f2 : @provider_same f1 f2 builtin so_order ds_order rad_like False.
Proof using All.
  constructor; cbn [p_check p_num p_rows p_nn_init p_nn_search p_nn_close builtin p_nn p_ds].
  - by intros a b [-> ->].
  - by intros a b [-> ->].
  - done.
  - intros a b s [-> ->]. unfold imp_init. eapply rM_bind; [apply rM_malloc| |intros _ ? ->; by apply res_ret|intros _ ? ->; by apply res_ret].
    intros [x|] [y|] Hxy; try done; by apply rM_ret.
  - intros o o' q k r r' (E1 & E2 & E3) Hr. unfold imp_nn_search. rewrite <- E3, E1, E2. eapply (rM_bind _ _ (fun _ => False) (fun _ _ => True)); [apply like_deref| |done|done].
    intros _ _ _. eapply (rM_bind _ _ (fun r => r = None) (fun x y => op (fun a b => a_cells a = a_cells b /\ length (a_cells a) = k) x y)).
    { unfold malloc_arr. eapply rM_bind; [apply rM_malloc| |intros _ ? ->; by apply res_ret|intros _ ? ->; by apply res_ret].
      intros [a|] [b|] H; try done; apply rM_ret; [|done]. split; [done|]. unfold fresh. cbn [a_cells]. apply replicate_length. }
    2, 3: intros _ ? ->; by apply res_ret.
    intros [a|] [b|] H; try done; [|by apply rM_ret]. destruct H as [Hab Hl]. rewrite <- Hab. apply (rM_lift _ _ eq).
    + cbn [with_ds]. eapply (rR_bind (fun x y : list nat * scratch => x.1 = y.1 /\ length x.2.1 = length y.2.1 /\ length x.2.1 = k /\ x.2.2 = y.2.2)).
      * apply rR_forR; [by splits|]. intros i [ok st] [ok' st'] (H1 & H2 & H3 & H4). cbn [fst snd] in *. subst ok'. destruct (iat q i) as [query|]; [|apply rR_bad1]. cbn [Rbind].
        eapply rR_bind; [by apply order_query|]. intros [fd s1] [fd' s2] (F1 & F2 & F3 & F4). cbn [fst snd] in *. subst fd'. apply rR_ok. destruct (decide (fd = k)); by splits.
      * intros [ok [sc ix]] [ok' [sc' ix']] (H1 & _ & _ & H4). cbn [fst snd] in *. subst ok' ix'. apply rR_refl.
    + intros x ? <-. eapply (rM_bind _ _ (fun _ => False) (fun _ _ => True)); [apply rM_free_arr| |done|done]. intros _ _ _. by apply rM_ret.
  - intros o o' _. apply like_close.
  - intros o o' _. eapply rM_mono; [apply (like_close o o' _ _ (fun _ => False))|done|done].
  - by intros r r' [H _].
  - done.
Qed.
End Search.

(** ** Data sets with the same order of distances *)

(** From each point, the others are in the same order of distance. *)
Definition same_order (d d' : dataset) (n : nat) : Prop :=
  forall q x y, q < n -> x < n -> y < n -> d_le (sqd d q x) (sqd d q y) = d_le (sqd d' q x) (sqd d' q y).
(** The same pairs of points are within the radii. *)
Definition same_within (d d' : dataset) (n : nat) (r r' : double) : Prop :=
  d_le r d_zero = d_le r' d_zero /\ forall q x, q < n -> x < n -> d_gt (sqd d q x) (d_mul r r) = d_gt (sqd d' q x) (d_mul r' r').
Definition no_estimate (o : options) : Prop := o_srad o <> RM_USE_ESTIMATED /\ o_prad o <> RM_USE_ESTIMATED /\ o_2rad o <> RM_USE_ESTIMATED.
Lemma no_estimates o : no_estimate o -> ~ estimates o.
Proof.
  intros (H1 & H2 & H3) [H|H]; revert H; unfold stage_radius; (destruct (decide (_ = UM_IGNORE)); [done|]); destruct (decide (_ = RM_USE_SEED_RADIUS)); done.
Qed.

Section Order.
Context (d d' : dataset) (n : nat) (Hd : data_ok d n) (Hd' : data_ok d' n) (Ho : same_order d d' n).
Notation t := (trim d' n).
Lemma paired_inv q x y : paired d t q x y -> exists j, q < n /\ j < n /\ x = sqd d q j /\ y = sqd d' q j.
Proof.
  intros (j & E1 & E2). destruct (decide (q < n /\ j < n)) as [[Hq Hj]|Hn].
  - exists j. rewrite (sq_dist_ok d n Hd) in E1 by done. rewrite (sq_dist_ok t n (trim_ok d' n Hd')) in E2 by done. injection E1 as <-. injection E2 as <-. splits; try done. symmetry. by apply trim_same.
  - destruct (trim_bad d' n q j Hd') as [u E]; [lia|]. congruence.
Qed.
Lemma trim_ge q x y u v : paired d t q x y -> paired d t q u v -> d_ge x u = d_ge y v.
Proof. intros (j & Hq & Hj & -> & ->)%paired_inv (l & _ & Hl & -> & ->)%paired_inv. by apply Ho. Qed.
Lemma trim_lt q x y u v : paired d t q x y -> paired d t q u v -> d_lt x u = d_lt y v.
Proof.
  intros (j & Hq & Hj & -> & ->)%paired_inv (l & _ & Hl & -> & ->)%paired_inv. rewrite !d_lt_le; try (by apply nonneg_number, (sqd_nonneg _ n)). f_equal. by apply Ho.
Qed.
Lemma trim_rad r r' : same_within d d' n r r' -> rad_like d t r r'.
Proof. intros [H1 H2]. split; [done|]. intros q x y (j & Hq & Hj & -> & ->)%paired_inv. by apply H2. Qed.

Lemma order_repeat cfg o x y z m c1 c2 w1 w2 : no_estimate o ->
  (o_srad o = RM_USE_SUPPLIED -> same_within d d' n (o_srad_val o) x) -> (o_prad o = RM_USE_SUPPLIED -> same_within d d' n (o_prad_val o) y) -> (o_2rad o = RM_USE_SUPPLIED -> same_within d d' n (o_2rad_val o) z) ->
  data_call cfg d n o c1 -> data_call cfg d' n (set_radii o x y z) c2 -> unused cfg m c1 -> unused cfg m c2 -> no_fail w1 -> no_fail w2 ->
  exists ec e1 w1' e2 w2', sc_clustering cfg builtin (Some d) (Some o) (Some c1) w1 = Ok ((ec, Some e1), w1') /\
    sc_clustering cfg builtin (Some d') (Some (set_radii o x y z)) (Some c2) w2 = Ok ((ec, Some e2), w2') /\ (ec = ER_OK -> c_k e1 = c_k e2 /\ cells e1 = cells e2).
Proof.
  intros He X Y Z H1 H2. pose proof (trim_call cfg d' n Hd' _ c2 H2) as H0.
  assert (calls_alike builtin (Some d) o (Some t) (set_radii o x y z)) as A1.
  { exists (so_order d t), (ds_order d t), (rad_like d t), False, x, y, z. split; [done|]. split; [|split; [done|]; split; [split; [|split]; intros; apply trim_rad; auto|right; by apply no_estimates]].
    intros. apply order_provider; [exact trim_lt|exact trim_ge| |].
    - by rewrite (ds_check d n), (ds_check t n (trim_ok d' n Hd')).
    - simpl. by rewrite (dk_n _ _ Hd), (dk_n _ _ Hd'). }
  assert (alike builtin (Some d') (Some t)) as A2. { exists so_like, ds_like. split; [apply same_like; auto using same_refl|]. intros. apply like_provider. }
  exact (alike_repeat cfg builtin n o (set_radii o x y z) (set_radii o x y z) m _ _ _ _ _ _ _ _ _ _ _ _ A1 (alike_calls _ _ _ _ A2) c2 c1 c2 w1 w2 H0 H1 H2).
Qed.
End Order.

(** ** Example *)

(** Ten times as far from each other, the last group farther away still. *)
Definition pts_stretched : list Z := (fun z => 10 * z + (if (60 <=? z)%Z then 1000 else 0))%Z <$> pts.
Definition order_b (d d' : dataset) : bool :=
  forallb (fun q => forallb (fun x => forallb (fun y => Bool.eqb (d_le (sqd d q x) (sqd d q y)) (d_le (sqd d' q x) (sqd d' q y))) (seq 0 12)) (seq 0 12)) (seq 0 12).
Definition within_b (d d' : dataset) (r r' : double) : bool :=
  (Bool.eqb (d_le r d_zero) (d_le r' d_zero) && forallb (fun q => forallb (fun x => Bool.eqb (d_gt (sqd d q x) (d_mul r r)) (d_gt (sqd d' q x) (d_mul r' r'))) (seq 0 12)) (seq 0 12))%bool.
Lemma all_12 (f : nat -> bool) : forallb f (seq 0 12) = true -> forall i, i < 12 -> f i = true.
Proof. intros H i Hi. rewrite forallb_forall in H. apply H, elem_of_list_In, elem_of_seq. lia. Qed.
Lemma order_by d d' : order_b d d' = true -> same_order d d' 12.
Proof. intros H q x y Hq Hx Hy. apply eqb_prop. by apply (all_12 _ (all_12 _ (all_12 _ H q Hq) x Hx) y Hy). Qed.
Lemma within_by d d' r r' : within_b d d' r r' = true -> same_within d d' 12 r r'.
Proof. intros [H1 H2]%andb_prop. split; [by apply eqb_prop|]. intros q x Hq Hx. apply eqb_prop. by apply (all_12 _ (all_12 _ H2 q Hq) x Hx). Qed.
Definition order_options : options := set_radii excl_options (d_of_Z 30) (d_of_Z 20) d_zero.
Lemma order_example : same_order (line pts) (line pts_stretched) 12 /\ no_estimate excl_options /\
  (o_srad excl_options = RM_USE_SUPPLIED /\ same_within (line pts) (line pts_stretched) 12 (o_srad_val excl_options) (d_of_Z 30)) /\
  (o_prad excl_options = RM_USE_SUPPLIED /\ same_within (line pts) (line pts_stretched) 12 (o_prad_val excl_options) (d_of_Z 20)) /\ o_2rad excl_options <> RM_USE_SUPPLIED /\
  callable pts excl_options /\ callable pts_stretched order_options /\
  clustered pts excl_options 2 [1; 0; 1; 1; 0; 0; 0; 1; 0; 0; 0; 1]%Z /\ clustered pts_stretched order_options 2 [1; 0; 1; 1; 0; 0; 0; 1; 0; 0; 0; 1]%Z.
Proof.
  split; [apply order_by; by vm_compute|]. split; [done|]. do 2 (split; [split; [done|apply within_by; by vm_compute]|]). split; [done|]. do 2 (split; [apply callable_by; by vm_compute|]). split; apply clustered_by; by vm_compute.
Qed.

(** An estimated radius is an average of distances: with it the order is not enough. *)
Definition pts_wider : list Z := (fun z => if (60 <=? z)%Z then 60 + 8 * (z - 60) else z)%Z <$> pts.
Definition estimate_options : options :=
  with_methods SM_LEXICAL UM_CLOSEST_SEED UM_IGNORE (with_radii RM_NO_RADIUS 0 RM_USE_ESTIMATED 0 RM_NO_RADIUS 0 (with_size 3 default_options)).
Lemma estimate_refuted : exists l l' o ec c w ec' c' w', length l = 12 /\ length l' = 12 /\ callable l o /\ callable l' o /\ same_order (line l) (line l') 12 /\
  cluster_line l o world0 = Ok ((ec, Some c), w) /\ cluster_line l' o world0 = Ok ((ec', Some c'), w') /\ ec = ER_OK /\ ec' = ER_OK /\ cells c <> cells c'.
Proof.
  exists pts, pts_wider, estimate_options. eexists _, _, _, _, _, _. do 2 (split; [done|]). do 2 (split; [apply callable_by; by vm_compute|]). split; [apply order_by; by vm_compute|].
  split; [vm_compute; reflexivity|]. split; [vm_compute; reflexivity|]. do 2 (split; [reflexivity|]). vm_compute. intros E. discriminate E.
Qed.
