(** Clusterings depend on the distances only. *)

From stdpp Require Import prelude list sorting.
From Coq Require Import NArith ZArith Floats.SpecFloat.
From Verif Require Import Base World Mem Digraph DigraphRep Float FloatFacts Spi Dist Options Arrays GraphSpec SeedSpec AssignSpec SeedsExcl
  Nng NngGraph NngSize NngAssign NngStage TypeCount TypeRows Batch BatchSpec BatchProof OptionsProof NngClustering Hier
  ScSpec ScProof ClusSpec ScFacts Approx ScClaims ScClaims2 DistProof Example1 Example2 FailClaims HierSpec HierFind HierDiv HierRun HierTop HierClaims PipeHier Report Same SameClaims SameHier.

(** ** The built-in functions with two data sets *)

(** Where both have a distance it is the same. *)
Definition dlike (d d' : dataset) : Prop := forall i j, rR eq (sq_dist d i j) (sq_dist d' i j).
Definition ds_like (a b : option dataset) : Prop :=
  imp_check a = imp_check b /\ imp_num a = imp_num b /\ forall d d', a = Some d -> b = Some d' -> dlike d d'.
Definition so_like (o o' : sobj) : Prop := ds_like (so_ds o) (so_ds o') /\ so_set o = so_set o'.

Lemma like_with {A} a b (k k' : dataset -> R A) : ds_like a b -> (forall d d', dlike d d' -> rR eq (k d) (k' d')) -> rR eq (with_ds a k) (with_ds b k').
Proof. intros (_ & _ & H) Hk. destruct a as [d|]; [|apply rR_bad1]. destruct b as [d'|]; [|apply rR_bad2]. by apply Hk, H. Qed.
Ltac like_step :=
  match goal with
  | |- rR eq ?x ?x => apply rR_refl
  | |- rR eq (sq_dist _ _ _) _ => match goal with H : dlike _ _ |- _ => apply H end
  | |- rR eq (Rbind _ _) _ => apply (rR_bind eq eq); [|intros ? ? <-]
  | |- rR eq (forR _ _ _ _) _ => apply (rR_forR eq); [reflexivity|intros ? ? ? <-]
  | |- rR eq (if ?x then _ else _) _ => destruct x
  | |- rR eq (match ?x with _ => _ end) _ => destruct x
  end.
Lemma rR_loopR_eq {S T} n i (s : S) (f g : nat -> S -> R (S + T)) : (forall j s, rR eq (f j s) (g j s)) -> rR eq (loopR n i s f) (loopR n i s g).
Proof.
  intros H. revert i s. induction n as [|n IH]; intros i s; simpl; [apply rR_refl|]. apply (rR_bind eq eq); [apply H|]. intros [a|a] ? <-; [apply IH|apply rR_refl].
Qed.
Lemma like_query d d' s q k off rad st : dlike d d' -> rR eq (nn_query d s q k off rad st) (nn_query d' s q k off rad st).
Proof.
  intros H. unfold nn_query. apply (rR_bind eq eq).
  - destruct rad as [r|]; cbv zeta.
    + apply (rR_bind eq eq); [|intros ? ? <-; apply rR_refl]. apply rR_loopR_eq. intros j [f [sc ix]]. repeat like_step.
    + repeat like_step.
  - intros [i [found st']] ? <-. repeat like_step.
Qed.
Lemma like_deref o o' f1 f2 : @rM f1 f2 unit (fun _ => False) (fun _ _ => True) (deref o) (deref o').
Proof. apply rM_keep; intros w a w'; unfold deref; destruct (decide _); try done; intros [= <- <-]; by split. Qed.
Lemma like_rows a b q c : ds_like a b -> forall f1 f2, @rM f1 f2 _ (fun r => r = None) eq (imp_rows a q c) (imp_rows b q c).
Proof. intros H f1 f2. unfold imp_rows. apply rM_lift0, like_with; [done|]. intros d d' Hd. repeat like_step. Qed.
Lemma like_init a b s : ds_like a b -> forall f1 f2, @rM f1 f2 _ (fun r => r = None) (op so_like) (imp_init a s) (imp_init b s).
Proof.
  intros H f1 f2. unfold imp_init. eapply rM_bind; [apply rM_malloc| |intros _ ? ->; by apply res_ret|intros _ ? ->; by apply res_ret].
  intros [x|] [y|] Hxy; try done; by apply rM_ret.
Qed.
Lemma like_close (o o' : sobj) f1 f2 (Q : bool -> Prop) : @rM f1 f2 _ Q eq (imp_close o) (imp_close o').
Proof.
  unfold imp_close. eapply (rM_bind _ _ (fun _ => False) (fun _ _ => True)); [apply rM_keep; intros w a w'; apply wle_free| |done|done]. intros _ _ _. by apply rM_ret.
Qed.
Lemma like_provider f1 f2 : @provider_same f1 f2 builtin so_like ds_like eq True.
Proof.
  constructor; cbn [p_check p_num p_rows p_nn_init p_nn_search p_nn_close builtin p_nn p_ds].
  - by intros a b [H _].
  - by intros a b (_ & H & _).
  - intros. by apply like_rows.
  - intros. by apply like_init.
  - intros o o' q k r r' [E1 E2] Hr. assert (r = r') as <- by (destruct r, r'; try done; simpl in Hr; by rewrite Hr). unfold imp_nn_search. rewrite <- E2. eapply (rM_bind _ _ (fun _ => False) (fun _ _ => True)); [apply like_deref| |done|done].
    intros _ _ _. eapply (rM_bind _ _ (fun r => r = None) (fun x y => op (fun a b => a_cells a = a_cells b) x y)).
    { unfold malloc_arr. eapply rM_bind; [apply rM_malloc| |intros _ ? ->; by apply res_ret|intros _ ? ->; by apply res_ret].
      intros [a|] [b|] H; try done; by apply rM_ret. }
    2, 3: intros _ ? ->; by apply res_ret.
    intros [a|] [b|] H; try done; [|by apply rM_ret]. simpl in H. rewrite <- H. apply (rM_lift _ _ eq).
    + apply like_with; [done|]. intros d d' Hd. apply (rR_bind eq eq); [|intros ? ? <-; apply rR_refl]. apply (rR_forR eq); [done|]. intros j [ok st] ? <-.
      apply (rR_bind eq eq); [apply rR_refl|]. intros query ? <-. apply (rR_bind eq eq); [by apply like_query|]. intros [fd st'] ? <-. apply rR_refl.
    + intros x ? <-. eapply (rM_bind _ _ (fun _ => False) (fun _ _ => True)); [apply rM_free_arr| |done|done]. intros _ _ _. by apply rM_ret.
  - intros o o' _. apply like_close.
  - intros o o' _. eapply rM_mono; [apply (like_close o o' _ _ (fun _ => False))|done|done].
  - by intros r ? <-.
  - done.
Qed.
Lemma like_hier f1 f2 : @hier_same f1 f2 builtin so_like ds_like.
Proof.
  constructor; cbn [p_check p_num p_rows p_mx_init p_mx_get p_mx_close builtin p_mx p_ds].
  - by intros a b [H _].
  - by intros a b (_ & H & _).
  - intros. by apply like_rows.
  - intros. by apply like_init.
  - intros o o' q [E1 E2]. unfold imp_max_get. rewrite <- E2. eapply (rM_bind _ _ (fun _ => False) (fun _ _ => True)); [apply like_deref| |done|done].
    intros _ _ _. apply rM_lift0, like_with; [done|]. intros d d' Hd. apply (rR_bind eq eq); [|intros ? ? <-; apply rR_refl]. apply (rR_forR eq); [done|]. intros j [is out] ? <-.
    apply (rR_bind eq eq); [|intros ? ? <-; apply rR_refl]. apply (rR_forR eq); [done|]. intros b [mx ix] ? <-. repeat like_step.
  - intros o o' _. apply like_close.
  - intros o o' _. eapply rM_mono; [apply (like_close o o' _ _ (fun _ => False))|done|done].
Qed.

(** ** Data sets with the same distances *)

Definition same_distances (d d' : dataset) (n : nat) : Prop := forall i j, i < n -> j < n -> sqd d i j = sqd d' i j.

(** Without the memory behind the last point. *)
Definition trim (d : dataset) (n : nat) : dataset :=
  DataSet (ds_version d) (ds_n d) (ds_dim d) (match ds_matrix d with None => None | Some m => Some (take (n * ds_dim d) m) end).
Lemma trim_ok d n : data_ok d n -> data_ok (trim d n) n.
Proof.
  intros [H1 H2 H3 H4 (m & H5 & H6 & H7)]. constructor; try done. simpl. rewrite H5. exists (take (n * ds_dim d) m). split; [done|]. split; [rewrite take_length; lia|]. by apply Forall_take.
Qed.
Lemma fold_sum_ext (f g : nat -> double) l acc : (forall t, t ∈ l -> f t = g t) -> foldl (fun acc t => d_add acc (f t)) acc l = foldl (fun acc t => d_add acc (g t)) acc l.
Proof. revert acc. induction l as [|t l IH]; intros acc H; simpl; [done|]. rewrite (H t) by left. apply IH. intros u Hu. apply H. by right. Qed.
Lemma trim_same d n : same_distances d (trim d n) n.
Proof.
  intros i j Hi Hj. unfold sqd. simpl ds_dim. apply (fold_sum_ext (fun t => d_mul (d_sub (coord d i t) (coord d j t)) (d_sub (coord d i t) (coord d j t)))
    (fun t => d_mul (d_sub (coord (trim d n) i t) (coord (trim d n) j t)) (d_sub (coord (trim d n) i t) (coord (trim d n) j t)))).
  intros t Ht%elem_of_seq. assert (forall a, a < n -> coord (trim d n) a t = coord d a t) as Hc; [|by rewrite !Hc].
  intros a Ha. unfold coord. simpl. destruct (ds_matrix d) as [m|]; [|done]. rewrite lookup_take by nia. done.
Qed.
Lemma trim_bad d n i j : data_ok d n -> n <= i \/ n <= j -> exists u, sq_dist (trim d n) i j = Bad u.
Proof.
  intros [H1 H2 H3 H4 (m & H5 & H6 & H7)] H. unfold sq_dist. simpl. rewrite H5. destruct (ds_dim d) as [|k] eqn:E; [done|]. simpl forR.
  assert (forall a, n <= a -> exists u, lget (take (n * S k) m) (a * S k + 0) = Bad u) as Hb.
  { intros a Ha. unfold lget. rewrite lookup_ge_None_2; [by eexists|]. rewrite take_length. nia. }
  destruct H as [H|H].
  - destruct (Hb i H) as [u ->]. by eexists.
  - destruct (lget _ (i * S k + 0)) as [x|]; [|by eexists]. simpl. destruct (Hb j H) as [u ->]. by eexists.
Qed.
Lemma ds_check d n : data_ok d n -> imp_check (Some d) = true.
Proof. intros [H1 H2 H3 H4 (m & H5 & _)]. unfold imp_check, is_initialized_data_set. rewrite H5, !bool_decide_eq_true_2 by congruence. done. Qed.
Lemma same_like d d' n : data_ok d n -> data_ok d' n -> same_distances d d' n -> ds_like (Some d) (Some (trim d' n)).
Proof.
  intros H H' Hs. pose proof (trim_ok d' n H') as Ht. split; [|split].
  - by rewrite (ds_check d n), (ds_check (trim d' n) n).
  - simpl. by rewrite (dk_n _ _ H), (dk_n _ _ H').
  - intros ? ? [= <-] [= <-] i j. destruct (decide (i < n /\ j < n)) as [[Hi Hj]|Hn].
    + rewrite (sq_dist_ok d n H), (sq_dist_ok (trim d' n) n Ht) by done. apply rR_ok. rewrite Hs by done. by apply trim_same.
    + destruct (trim_bad d' n i j H') as [u ->]; [lia|]. apply rR_bad2.
Qed.
Lemma same_refl d n : same_distances d d n.
Proof. by intros i j _ _. Qed.

(** ** Calls *)

(** A call with a built-in data set that meets the requirements of the claims. *)
Definition data_call cfg d n o c : Prop := call_ok cfg builtin (builtin_view d n) (Some d) n (eucl_geo d) (eucl d) o c.
Definition data_hier cfg d n qs k c : Prop := hier_call cfg builtin (builtin_view d n) (Some d) n (eucl_geo d) (eucl d) qs k c.

Section Calls.
Context (cfg : config) (d d' : dataset) (n : nat) (Hd : data_ok d n) (Hd' : data_ok d' n) (Hs : same_distances d d' n).

Lemma trim_call o c : data_call cfg d' n o c -> data_call cfg (trim d' n) n o c.
Proof. intros [H1 H2 H3 H4 H5 H6]. constructor; try done. by apply builtin_ok, trim_ok. Qed.
Lemma trim_hier qs k c : data_hier cfg d' n qs k c -> data_hier cfg (trim d' n) n qs k c.
Proof. intros []. pose proof (trim_ok d' n Hd') as Ht. constructor; try done; [by apply builtin_ok|by apply builtin_sane|by apply (ds_check _ n)]. Qed.
Lemma few_like (D D' : dist_fun) m : (forall i j, i < n -> j < n -> D i j = D' i j) -> few_duplicates n D m -> few_duplicates n D' m.
Proof. intros He H a l Ha Hl Hf. apply (H a l Ha Hl). eapply Forall_impl; [exact Hf|]. intros y [Hy H0]. split; [done|]. by rewrite He. Qed.

Lemma dist_repeat o m c1 c2 w1 w2 : data_call cfg d n o c1 -> data_call cfg d' n o c2 -> unused cfg m c1 -> unused cfg m c2 -> no_fail w1 -> no_fail w2 ->
  exists ec e1 w1' e2 w2', sc_clustering cfg builtin (Some d) (Some o) (Some c1) w1 = Ok ((ec, Some e1), w1') /\ sc_clustering cfg builtin (Some d') (Some o) (Some c2) w2 = Ok ((ec, Some e2), w2') /\
    (ec = ER_OK -> c_k e1 = c_k e2 /\ cells e1 = cells e2).
Proof.
  intros H1 H2. pose proof (trim_call o c2 H2) as H0.
  assert (alike builtin (Some d) (Some (trim d' n))) as A1. { exists so_like, ds_like. split; [by apply same_like|]. intros. apply like_provider. }
  assert (alike builtin (Some d') (Some (trim d' n))) as A2. { exists so_like, ds_like. split; [apply same_like; auto using same_refl|]. intros. apply like_provider. }
  exact (alike_repeat cfg builtin n o o o m _ _ _ _ _ _ _ _ _ _ _ _ (alike_calls _ _ _ o A1) (alike_calls _ _ _ o A2) c2 c1 c2 w1 w2 H0 H1 H2).
Qed.
Lemma dist_hier qs log2cap k batch c1 c2 w1 w2 : qsort_repeatable qs -> data_hier cfg d n qs k c1 -> data_hier cfg d' n qs k c2 -> same_start c1 c2 ->
  (c_k c1 = 0 -> few_duplicates n (eucl d) (2 * k)) -> no_fail w1 -> no_fail w2 ->
  exists ec e1 w1' e2 w2', hierarchical_clustering cfg builtin qs log2cap (Some d) k batch (Some c1) w1 = Ok ((ec, Some e1), w1') /\
    hierarchical_clustering cfg builtin qs log2cap (Some d') k batch (Some c2) w2 = Ok ((ec, Some e2), w2') /\ (ec = ER_OK -> c_k e1 = c_k e2 /\ cells e1 = cells e2).
Proof.
  intros Hq H1 H2 Hc Hf. pose proof (trim_hier qs k c2 H2) as H0.
  assert (hier_alike builtin (Some d) (Some (trim d' n))) as A1. { exists so_like, ds_like. split; [by apply same_like|]. intros. apply like_hier. }
  assert (hier_alike builtin (Some d') (Some (trim d' n))) as A2. { exists so_like, ds_like. split; [apply same_like; auto using same_refl|]. intros. apply like_hier. }
  apply (hier_alike_repeat cfg builtin n qs log2cap k batch _ _ _ _ _ _ _ _ _ _ _ _ A1 A2 Hq c2 c1 c2 w1 w2 H0 H1 H2 Hc).
  intros K. specialize (Hf K). assert (few_duplicates n (eucl d') (2 * k)) as Hf'. { eapply few_like; [|exact Hf]. intros i j Hi Hj. unfold eucl. by rewrite Hs. }
  split; [done|]. split; [done|]. eapply few_like; [|exact Hf']. intros i j Hi Hj. unfold eucl. by rewrite <- trim_same.
Qed.
End Calls.

(** ** Changes that keep distances *)

(** Some coordinates with the sign reversed, for all points. *)
Definition mirrored (s : nat -> bool) (d d' : dataset) (n : nat) : Prop :=
  ds_dim d' = ds_dim d /\ forall i t, i < n -> t < ds_dim d -> coord d' i t = if s t then SFopp (coord d i t) else coord d i t.
(** One coordinate more, the same for all points. *)
Definition padded (v : double) (d d' : dataset) (n : nat) : Prop :=
  ds_dim d' = S (ds_dim d) /\ forall i, i < n -> (forall t, t < ds_dim d -> coord d' i t = coord d i t) /\ coord d' i (ds_dim d) = v.
(** Points of the plane with their coordinates exchanged. *)
Definition exchanged (d d' : dataset) (n : nat) : Prop :=
  ds_dim d = 2 /\ ds_dim d' = 2 /\ forall i, i < n -> coord d' i 0 = coord d i 1 /\ coord d' i 1 = coord d i 0.
(** All moved by the same vector. *)
Definition moved (v : nat -> double) (d d' : dataset) (n : nat) : Prop :=
  ds_dim d' = ds_dim d /\ forall i t, i < n -> t < ds_dim d -> coord d' i t = d_add (coord d i t) (v t).

Lemma d_sub_opp s x y : with_sign s (d_sub (SFopp x) (SFopp y)) = with_sign s (d_sub x y).
Proof.
  destruct x as [a|a| |a m e], y as [b|b| |b m' e']; unfold d_sub; simpl; try done; try (destruct a, b; done); try (destruct b; done); try (destruct a; done).
  rewrite <- normalize_opp. do 2 f_equal. destruct a, b; simpl; lia.
Qed.
Lemma mirrored_same s d d' n : mirrored s d d' n -> same_distances d d' n.
Proof.
  intros [Hdim H] i j Hi Hj. unfold sqd. rewrite Hdim. apply (fold_sum_ext (fun t => d_mul (d_sub (coord d i t) (coord d j t)) (d_sub (coord d i t) (coord d j t)))
    (fun t => d_mul (d_sub (coord d' i t) (coord d' j t)) (d_sub (coord d' i t) (coord d' j t)))).
  intros t Ht%elem_of_seq. rewrite !H by lia. destruct (s t); [|done]. rewrite <- (d_square_sign false), <- (d_sub_opp false). apply d_square_sign.
Qed.
Lemma d_add_zero x : d_nonneg x -> d_add x d_zero = x.
Proof. destruct x as [a|a| |a m e]; try done; simpl; by intros ->. Qed.
Lemma d_zero_add x : d_nonneg x -> d_add d_zero x = x.
Proof. destruct x as [a|a| |a m e]; try done; simpl; by intros ->. Qed.
Lemma d_add_comm x y : d_add x y = d_add y x.
Proof.
  destruct x as [a|a| |a m e], y as [b|b| |b m' e']; unfold d_add; simpl; try done; try (destruct a, b; done).
  rewrite (Z.min_comm e' e). by rewrite Z.add_comm.
Qed.
Lemma padded_same v d d' n : data_ok d n -> d_is_finite v = true -> padded v d d' n -> same_distances d d' n.
Proof.
  intros Hd Hv [Hdim H] i j Hi Hj. symmetry. unfold sqd at 1. rewrite Hdim, seq_S, foldl_app. simpl foldl at 1. destruct (H i Hi) as [Hi1 Hi2], (H j Hj) as [Hj1 Hj2]. rewrite Hi2, Hj2, d_sub_self by done.
  rewrite (fold_sum_ext (fun t => d_mul (d_sub (coord d' i t) (coord d' j t)) (d_sub (coord d' i t) (coord d' j t))) (fun t => d_mul (d_sub (coord d i t) (coord d j t)) (d_sub (coord d i t) (coord d j t)))).
  - apply (d_add_zero (sqd d i j)). by apply (sqd_nonneg d n).
  - intros t Ht%elem_of_seq. rewrite Hi1, Hj1 by lia. done.
Qed.
Lemma exchanged_same d d' n : data_ok d n -> exchanged d d' n -> same_distances d d' n.
Proof.
  intros Hd (E1 & E2 & H) i j Hi Hj. unfold sqd. rewrite E1, E2. cbn [seq foldl]. destruct (H i Hi) as [-> ->], (H j Hj) as [-> ->].
  assert (forall t, d_nonneg (d_mul (d_sub (coord d i t) (coord d j t)) (d_sub (coord d i t) (coord d j t)))) as Hn.
  { intros t. apply d_square_nonneg, d_sub_number; by apply (coord_finite d n). }
  rewrite !d_zero_add by apply Hn. apply d_add_comm.
Qed.

(** ** Examples *)

(** Points of the plane. *)
Definition plane (l : list (Z * Z)) : dataset := DataSet dataset_version (length l) 2 (Some (concat ((fun p => [d_of_Z p.1; d_of_Z p.2]) <$> l))).
Definition pts_mirrored : dataset := DataSet dataset_version 12 1 (Some (SFopp <$> (d_of_Z <$> pts))).
Definition pts_padded : list (Z * Z) := (fun z => (z, 7%Z)) <$> pts.
Definition pts_exchanged : list (Z * Z) := (fun z => (7%Z, z)) <$> pts.
Definition finite_d (l : list double) : bool := forallb d_is_finite l.
Lemma plane_data l : l <> [] -> finite_d (concat ((fun p => [d_of_Z p.1; d_of_Z p.2]) <$> l)) = true -> data_ok (plane l) (length l).
Proof.
  intros H Hf. constructor; auto; [destruct l; simpl; [done|lia]|]. eexists. split; [done|]. split.
  - simpl. assert (length l * 2 <= length (concat ((fun p => [d_of_Z p.1; d_of_Z p.2]) <$> l))); [|done]. clear. induction l as [|p l IH]; [done|]. rewrite fmap_cons, concat_cons, app_length. cbn [length Nat.mul]. lia.
  - unfold finite_d in Hf. rewrite forallb_forall in Hf. apply Forall_forall. intros x Hx. by apply Hf, elem_of_list_In.
Qed.
Lemma data_call_on d n o : data_ok d n -> n = 12 -> sane_b o n = true -> callable pts o -> data_call default_config d n o (new_clustering n).
Proof. intros Hd -> Hs [H1 H2 H3 H4 H5 H6]. constructor; try done. by apply builtin_ok. Qed.
Ltac points := let i := fresh in let H := fresh in intros i H; do 12 (destruct i as [|i]; [by vm_compute|]); simpl in H; lia.
Lemma mirrored_pts : mirrored (fun _ => true) (line pts) pts_mirrored 12.
Proof. split; [done|]. intros i t Hi Ht. destruct t; [|simpl in Ht; lia]. revert i Hi. points. Qed.
Lemma padded_pts : padded (d_of_Z 7) (line pts) (plane pts_padded) 12.
Proof. split; [done|]. intros i Hi. split; [intros t Ht; destruct t; [|simpl in Ht; lia]|]; revert i Hi; points. Qed.
Lemma exchanged_pts : exchanged (plane pts_padded) (plane pts_exchanged) 12.
Proof. split; [done|]. split; [done|]. intros i Hi. split; revert i Hi; points. Qed.
Definition run_on (d : dataset) (o : options) : R (ecode * option clustering * world) := sc_clustering default_config builtin (Some d) (Some o) (Some (new_clustering (ds_n d))) world0.
Definition hier_on (d : dataset) (k : nat) : R (ecode * option clustering * world) := hierarchical_clustering default_config builtin sort_edges cap (Some d) k false (Some (new_clustering (ds_n d))) world0.
Lemma pts_data : data_ok (line pts) 12 /\ data_ok pts_mirrored 12 /\ data_ok (plane pts_padded) 12 /\ data_ok (plane pts_exchanged) 12.
Proof.
  split; [apply line_data; by vm_compute|]. split; [|split; apply plane_data; by vm_compute].
  constructor; try done. eexists. split; [reflexivity|]. split; [simpl; lia|]. repeat constructor; by vm_compute.
Qed.
Lemma data_hier_on d : data_ok d 12 -> data_hier default_config d 12 sort_edges 2 (new_clustering 12).
Proof.
  intros Hd. assert (hier_callable pts 2 (new_clustering 12)) as [] by (apply hier_callable_by; try done; simpl; lia).
  constructor; try done; [by apply builtin_ok|by apply builtin_sane|by apply (ds_check _ 12)|by destruct Hd].
Qed.
Lemma kept_example : mirrored (fun _ => true) (line pts) pts_mirrored 12 /\ padded (d_of_Z 7) (line pts) (plane pts_padded) 12 /\ exchanged (plane pts_padded) (plane pts_exchanged) 12 /\
  data_ok (line pts) 12 /\ data_ok pts_mirrored 12 /\ data_ok (plane pts_padded) 12 /\ data_ok (plane pts_exchanged) 12.
Proof. split; [apply mirrored_pts|]. split; [apply padded_pts|]. split; [apply exchanged_pts|]. exact pts_data. Qed.
Lemma sc_example : data_call default_config (plane pts_padded) 12 excl_options (new_clustering 12) /\ data_call default_config (plane pts_exchanged) 12 excl_options (new_clustering 12) /\
  same_distances (plane pts_padded) (plane pts_exchanged) 12 /\
  ends (run_on (line pts) excl_options) ER_OK 2 [1; 0; 1; 1; 0; 0; 0; 1; 0; 0; 0; 1]%Z 1 /\ ends (run_on pts_mirrored excl_options) ER_OK 2 [1; 0; 1; 1; 0; 0; 0; 1; 0; 0; 0; 1]%Z 1 /\
  ends (run_on (plane pts_padded) excl_options) ER_OK 2 [1; 0; 1; 1; 0; 0; 0; 1; 0; 0; 0; 1]%Z 1 /\ ends (run_on (plane pts_exchanged) excl_options) ER_OK 2 [1; 0; 1; 1; 0; 0; 0; 1; 0; 0; 0; 1]%Z 1.
Proof.
  destruct pts_data as (D1 & D2 & D3 & D4). assert (callable pts excl_options) as Hc by (apply callable_by; by vm_compute).
  do 2 (split; [apply data_call_on; done|]). split; [exact (exchanged_same _ _ 12 D3 exchanged_pts)|]. repeat split; apply ends_by; by vm_compute.
Qed.
Lemma hier_example : data_hier default_config (plane pts_padded) 12 sort_edges 2 (new_clustering 12) /\ data_hier default_config (plane pts_exchanged) 12 sort_edges 2 (new_clustering 12) /\
  same_distances (plane pts_padded) (plane pts_exchanged) 12 /\ few_duplicates 12 (eucl (plane pts_padded)) (2 * 2) /\
  ends (hier_on (plane pts_padded) 2) ER_OK 5 [4; 2; 4; 3; 1; 0; 2; 3; 0; 0; 1; 4]%Z 1 /\ ends (hier_on (plane pts_exchanged) 2) ER_OK 5 [4; 2; 4; 3; 1; 0; 2; 3; 0; 0; 1; 4]%Z 1.
Proof.
  destruct pts_data as (D1 & D2 & D3 & D4). do 2 (split; [by apply data_hier_on|]). split; [exact (exchanged_same _ _ 12 D3 exchanged_pts)|].
  split; [apply few_duplicates_by; by vm_compute|]. split; apply ends_by; by vm_compute.
Qed.

(** Far away from zero the differences between the points are lost. *)
Definition pts_moved : list Z := (fun z => z + 2 ^ 60)%Z <$> pts.
Lemma moved_refuted : exists v l l' o ec c w ec' c' w', (forall t, d_is_finite (v t) = true) /\ callable l o /\ callable l' o /\ moved v (line l) (line l') (length l) /\
  cluster_line l o world0 = Ok ((ec, Some c), w) /\ cluster_line l' o world0 = Ok ((ec', Some c'), w') /\ ec = ER_OK /\ ec' = ER_OK /\ cells c <> cells c'.
Proof.
  exists (fun _ => d_of_Z (2 ^ 60)), pts, pts_moved, excl_options. eexists _, _, _, _, _, _. split; [by intros; vm_compute|]. do 2 (split; [apply callable_by; by vm_compute|]).
  split. { split; [done|]. intros i t Hi Ht. destruct t; [|simpl in Ht; lia]. revert i Hi. points. }
  split; [vm_compute; reflexivity|]. split; [vm_compute; reflexivity|]. do 2 (split; [reflexivity|]). vm_compute. intros E. discriminate E.
Qed.
