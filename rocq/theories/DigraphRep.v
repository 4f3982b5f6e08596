(** Representation of digraphs by adjacency lists, and loops over arcs. *)

From stdpp Require Import prelude list.
From Coq Require Import NArith ZArith.
From Verif Require Import Base World Mem Digraph.

(** Index in the arc array of the first arc of vertex [k]. *)
Definition offs (rows : list (list nat)) (k : nat) : nat := length (concat (take k rows)).

Lemma offs_0 rows : offs rows 0 = 0.
Proof. reflexivity. Qed.

Lemma offs_S rows k r : rows !! k = Some r -> offs rows (S k) = offs rows k + length r.
Proof.
  intros H. unfold offs. rewrite (take_S_r _ _ _ H), concat_app, app_length. simpl.
  by rewrite app_nil_r.
Qed.

Lemma offs_all rows k : length rows <= k -> offs rows k = length (concat rows).
Proof. intros H. unfold offs. by rewrite take_ge. Qed.

Lemma offs_le_all rows k : offs rows k <= length (concat rows).
Proof.
  unfold offs. rewrite <- (take_drop k rows) at 2. rewrite concat_app, app_length. lia.
Qed.

Lemma offs_app_l l1 l2 k : k <= length l1 -> offs (l1 ++ l2) k = offs l1 k.
Proof. intros H. unfold offs. by rewrite take_app_le. Qed.

Lemma offs_mono rows i j : i <= j -> offs rows i <= offs rows j.
Proof.
  intros H. unfold offs. replace j with (i + (j - i)) by lia. rewrite <- take_take_drop.
  rewrite concat_app, app_length. lia.
Qed.

Lemma concat_lookup rows v (r : list nat) j x :
  rows !! v = Some r -> r !! j = Some x -> concat rows !! (offs rows v + j) = Some x.
Proof.
  intros Hv Hj. unfold offs.
  rewrite <- (take_drop_middle rows v r Hv) at 2.
  rewrite concat_app. rewrite lookup_app_r by lia.
  replace (_ + j - _) with j by lia. simpl. by apply lookup_app_l_Some.
Qed.

(** Reading an arc of row [v]. *)
Lemma offs_lt rows v (r : list nat) j : rows !! v = Some r -> j < length r ->
  offs rows v + j < length (concat rows).
Proof.
  intros Hv Hj. pose proof (offs_S _ _ _ Hv). pose proof (offs_le_all rows (S v)). lia.
Qed.

Definition tail_rep (c : list (option nat)) (rows : list (list nat)) : Prop :=
  length c = S (length rows) /\
  forall k, k <= length rows -> c !! k = Some (Some (offs rows k)).

Section Rep.
Context (cfg : config).

(** [dg] is a valid digraph whose vertex [v] has the arcs [rows !! v]. *)
Record dg_rep (dg : digraph) (rows : list (list nat)) : Prop := {
  rep_n : dg_n dg = length rows;
  rep_tail : exists b c, dg_tail dg = Some (Arr b c) /\ tail_rep c rows;
  rep_head : match dg_head dg with
             | None => dg_max dg = 0 /\ concat rows = []
             | Some a => dg_max dg = length (a_cells a) /\ 0 < dg_max dg /\
                         filled (a_cells a) (concat rows)
             end;
  rep_lt : Forall (Forall (fun x => x < length rows)) rows;
  rep_ai : too_many_arcs cfg (dg_max dg) = false
}.

(** Memory blocks owned by a digraph. *)
Definition arr_blk {A} (p : option (arr A)) : list nat :=
  match p with Some a => [a_blk a] | None => [] end.
Definition dg_blocks (dg : digraph) : list nat := arr_blk (dg_head dg) ++ arr_blk (dg_tail dg).

Lemma too_many_arcs_mono a b : a <= b -> too_many_arcs cfg b = false -> too_many_arcs cfg a = false.
Proof.
  unfold too_many_arcs. intros H. rewrite !orb_false_iff, !N.ltb_ge. lia.
Qed.

Lemma too_many_arcs_wrap a : too_many_arcs cfg a = false -> wrapN (ai_max cfg) a = a.
Proof.
  unfold too_many_arcs. rewrite orb_false_iff, !N.ltb_ge. intros [? ?]. by apply wrapN_small.
Qed.

Lemma rep_max dg rows : dg_rep dg rows -> length (concat rows) <= dg_max dg.
Proof.
  intros H. pose proof (rep_head _ _ H). destruct (dg_head dg).
  - destruct H0 as (-> & _ & Hf). by apply filled_length in Hf.
  - destruct H0 as (-> & ->). simpl. lia.
Qed.

Lemma rep_tail_get dg rows k : dg_rep dg rows -> k <= length rows ->
  aget (dg_tail dg) k = Ok (offs rows k).
Proof.
  intros H Hk. destruct (rep_tail _ _ H) as (b & c & -> & Hl & Hc). simpl.
  apply cget_ok. auto.
Qed.

Lemma rep_head_get dg rows v r j x : dg_rep dg rows -> rows !! v = Some r -> r !! j = Some x ->
  aget (dg_head dg) (offs rows v + j) = Ok x.
Proof.
  intros H Hv Hj. pose proof (rep_head _ _ H) as Hh.
  pose proof (concat_lookup _ _ _ _ _ Hv Hj) as Hc.
  destruct (dg_head dg) as [a|]; simpl.
  - destruct Hh as (_ & _ & Hf). apply cget_ok. eapply filled_lookup; eauto.
  - destruct Hh as (_ & He). rewrite He in Hc. discriminate.
Qed.

(** All arcs in array order. *)
Lemma rep_head_get_all dg rows j x : dg_rep dg rows -> concat rows !! j = Some x ->
  aget (dg_head dg) j = Ok x.
Proof.
  intros H Hj. pose proof (rep_head _ _ H) as Hh.
  destruct (dg_head dg) as [a|]; simpl.
  - destruct Hh as (_ & _ & Hf). apply cget_ok. eapply filled_lookup; eauto.
  - destruct Hh as (_ & He). rewrite He in Hj. discriminate.
Qed.

Lemma for_arcs_fold {S} dg rows v r (s : S) f : dg_rep dg rows -> rows !! v = Some r ->
  for_arcs dg v s f = foldR f s r.
Proof.
  intros H Hv. assert (v < length rows) by (eapply lookup_lt_Some; eauto).
  unfold for_arcs. rewrite (rep_tail_get _ _ v H), (rep_tail_get _ _ (v + 1) H) by lia. simpl.
  rewrite Nat.add_1_r, (offs_S _ _ _ Hv). unfold for_ptr. rewrite decide_False by lia.
  replace (offs rows v + length r - offs rows v) with (length r) by lia.
  apply (forR_foldR f). intros j x Hj. eapply rep_head_get; eauto.
Qed.

Lemma loop_arcs_fold {S T} dg rows v r (s : S) (f : nat -> S -> R (S + T)) :
  dg_rep dg rows -> rows !! v = Some r ->
  loop_arcs dg v s f = foldXR f s r.
Proof.
  intros H Hv. assert (v < length rows) by (eapply lookup_lt_Some; eauto).
  unfold loop_arcs. rewrite (rep_tail_get _ _ v H), (rep_tail_get _ _ (v + 1) H) by lia. simpl.
  rewrite Nat.add_1_r, (offs_S _ _ _ Hv). unfold loop_ptr. rewrite decide_False by lia.
  replace (offs rows v + length r - offs rows v) with (length r) by lia.
  apply (loopR_foldXR f). intros j x Hj. eapply rep_head_get; eauto.
Qed.

Lemma for_all_arcs_fold {S} dg rows (s : S) f : dg_rep dg rows ->
  for_ptr 0 (length (concat rows)) s (fun j s => let! x := aget (dg_head dg) j in f x s)
  = foldR f s (concat rows).
Proof.
  intros H. unfold for_ptr. rewrite decide_False by lia. rewrite Nat.sub_0_r.
  apply (forR_foldR f). intros j x Hj. simpl. eapply rep_head_get_all; eauto.
Qed.

Lemma rep_lookup_lt dg rows v r x : dg_rep dg rows -> rows !! v = Some r -> x ∈ r -> x < length rows.
Proof.
  intros H Hv Hx. pose proof (rep_lt _ _ H) as Hl.
  eapply Forall_lookup_1 in Hl; eauto. eapply Forall_forall in Hl; eauto.
Qed.

Lemma is_empty_rep dg rows : dg_rep dg rows ->
  digraph_is_empty dg = Ok (bool_decide (concat rows = [])).
Proof.
  intros H. unfold digraph_is_empty. rewrite (rep_n _ _ H), (rep_tail_get _ _ _ H) by lia. simpl.
  rewrite offs_all by lia. f_equal. apply bool_decide_ext. split.
  - apply nil_length_inv.
  - intros ->. reflexivity.
Qed.

(** ** Memory specifications of the basic operations *)

Lemma Msat_free_arr {A} B (p : option (arr A)) w (Q : unit -> world -> Prop) :
  (forall x, cnt x (arr_blk p) <= cnt x (w_live w)) ->
  (forall w', wle w w' ->
     (forall x, cnt x (w_live w) = cnt x (arr_blk p) + cnt x (w_live w')) ->
     w_err w' = w_err w -> w_tick w' = w_tick w -> Q tt w') ->
  Msat B (free_arr p) w Q.
Proof.
  intros Hc HQ. unfold free_arr. destruct p as [a|]; simpl in *.
  - apply Msat_free.
    + specialize (Hc (a_blk a)). rewrite decide_True in Hc by auto. lia.
    + intros w' H1 H2 H3 H4. apply HQ; auto. intros x. rewrite H2. lia.
  - apply Msat_free_null. apply HQ; auto.
Qed.

Lemma Msat_free_digraph B dg w (Q : digraph -> world -> Prop) :
  (forall x, cnt x (dg_blocks dg) <= cnt x (w_live w)) ->
  (forall w', wle w w' ->
     (forall x, cnt x (w_live w) = cnt x (dg_blocks dg) + cnt x (w_live w')) ->
     w_err w' = w_err w -> w_tick w' = w_tick w -> Q dg_null w') ->
  Msat B (free_digraph dg) w Q.
Proof.
  intros Hc HQ. unfold free_digraph, dg_blocks in *.
  apply Msat_bind. apply Msat_free_arr.
  { intros x. specialize (Hc x). rewrite cnt_app in Hc. lia. }
  intros w1 L1 C1 E1 T1. apply Msat_bind. apply Msat_free_arr.
  { intros x. specialize (Hc x). specialize (C1 x). rewrite cnt_app in Hc. lia. }
  intros w2 L2 C2 E2 T2. apply Msat_ret. apply HQ; eauto; try congruence.
  intros x. specialize (C1 x). specialize (C2 x). rewrite cnt_app. lia.
Qed.

Lemma Msat_malloc_arr A B n w (Q : option (arr A) -> world -> Prop) :
  (forall w', wle w w' -> own w' [] w -> w_err w' = w_err w -> w_tick w' = w_tick w ->
     ~ no_fail w -> Q None w') ->
  (forall w' b, wle w w' -> own w' [b] w -> w_err w' = w_err w -> w_tick w' = w_tick w ->
     Q (Some (Arr b (fresh A n))) w') ->
  Msat B (malloc_arr A n) w Q.
Proof.
  intros HN HS. unfold malloc_arr. apply Msat_bind. apply Msat_malloc.
  - intros. apply Msat_ret. auto.
  - intros. apply Msat_ret. auto.
Qed.

Lemma Msat_calloc_arr {A} B n (x0 : A) w (Q : option (arr A) -> world -> Prop) :
  (forall w', wle w w' -> own w' [] w -> w_err w' = w_err w -> w_tick w' = w_tick w ->
     ~ no_fail w -> Q None w') ->
  (forall w' b, wle w w' -> own w' [b] w -> w_err w' = w_err w -> w_tick w' = w_tick w ->
     Q (Some (Arr b (replicate n (Some x0)))) w') ->
  Msat B (calloc_arr n x0) w Q.
Proof.
  intros HN HS. unfold calloc_arr. apply Msat_bind. apply Msat_malloc.
  - intros. apply Msat_ret. auto.
  - intros. apply Msat_ret. auto.
Qed.

(** Outcome of the digraph constructors. *)
Definition init_post (t0 : option nat) (vertices max_arcs : nat) (w : world)
    (r : ecode * digraph) (w' : world) : Prop :=
  wle w w' /\ w_tick w' = w_tick w /\
  (r.1 = ER_OK ->
     own w' (dg_blocks r.2) w /\ w_err w' = w_err w /\
     too_many_arcs cfg max_arcs = false /\
     dg_n r.2 = vertices /\ dg_max r.2 = max_arcs /\
     (exists b, dg_tail r.2 = Some (Arr b (replicate (vertices + 1) t0))) /\
     (if decide (max_arcs = 0) then dg_head r.2 = None
      else exists b, dg_head r.2 = Some (Arr b (fresh nat max_arcs)))) /\
  (r.1 <> ER_OK ->
     own w' [] w /\
     ((too_many_arcs cfg max_arcs = true /\ r.1 = ER_TOO_LARGE_PROBLEM) \/
      (~ no_fail w /\ r.1 = ER_NO_MEMORY)) /\
     e_code (w_err w') = r.1).

Lemma Msat_init_digraph B vertices max_arcs w :
  Msat B (init_digraph cfg vertices max_arcs) w (init_post None vertices max_arcs w).
Proof.
  unfold init_digraph. destruct (too_many_arcs cfg max_arcs) eqn:Et.
  - apply Msat_bind. apply Msat_make_error__. intros w1 L1 O1 E1 T1. apply Msat_ret.
    split; [auto|]. split; [auto|]. simpl. split; [discriminate|]. intros _.
    split; [exact O1|]. split; [auto|]. by rewrite E1.
  - apply Msat_bind. apply Msat_malloc_arr.
    + intros w1 L1 O1 E1 T1 F1. apply Msat_bind. apply Msat_make_error__.
      intros w2 L2 O2 E2 T2. apply Msat_ret.
      split; [eauto|]. split; [congruence|]. simpl. split; [discriminate|]. intros _.
      split; [own_solve|]. split; [auto|]. by rewrite E2.
    + intros w1 b L1 O1 E1 T1. destruct (decide (0 < max_arcs)) as [Hm|Hm].
      * apply Msat_bind. apply Msat_malloc_arr.
        -- intros w2 L2 O2 E2 T2 F2. apply Msat_bind. apply Msat_free_digraph.
           { unfold dg_blocks; simpl. intros x. specialize (O1 x). specialize (O2 x). simpl in *. lia. }
           intros w3 L3 C3 E3 T3. apply Msat_bind. apply Msat_make_error__.
           intros w4 L4 O4 E4 T4. apply Msat_ret.
           split; [eauto|]. split; [congruence|]. simpl. split; [discriminate|]. intros _.
           split; [own_solve|]. split; [|by rewrite E4].
           right. split; auto. intros ?. apply F2. eapply no_fail_wle; eauto.
        -- intros w2 b2 L2 O2 E2 T2. apply Msat_ret.
           split; [eauto|]. split; [congruence|]. simpl. split; [|congruence]. intros _.
           split; [own_solve|]. split; [congruence|]. repeat split; eauto.
           rewrite decide_False by lia. eauto.
      * apply Msat_ret. split; [eauto|]. split; [congruence|]. simpl. split; [|congruence]. intros _.
        split; [own_solve|]. repeat split; eauto.
        rewrite decide_True by lia. auto.
Qed.

Lemma Msat_empty_digraph B vertices max_arcs w :
  Msat B (empty_digraph cfg vertices max_arcs) w (init_post (Some 0) vertices max_arcs w).
Proof.
  unfold empty_digraph. destruct (too_many_arcs cfg max_arcs) eqn:Et.
  - apply Msat_bind. apply Msat_make_error__. intros w1 L1 O1 E1 T1. apply Msat_ret.
    split; [auto|]. split; [auto|]. simpl. split; [discriminate|]. intros _.
    split; [exact O1|]. split; [auto|]. by rewrite E1.
  - apply Msat_bind. apply Msat_calloc_arr.
    + intros w1 L1 O1 E1 T1 F1. apply Msat_bind. apply Msat_make_error__.
      intros w2 L2 O2 E2 T2. apply Msat_ret.
      split; [eauto|]. split; [congruence|]. simpl. split; [discriminate|]. intros _.
      split; [own_solve|]. split; [auto|]. by rewrite E2.
    + intros w1 b L1 O1 E1 T1. destruct (decide (0 < max_arcs)) as [Hm|Hm].
      * apply Msat_bind. apply Msat_malloc_arr.
        -- intros w2 L2 O2 E2 T2 F2. apply Msat_bind. apply Msat_free_digraph.
           { unfold dg_blocks; simpl. intros x. specialize (O1 x). specialize (O2 x). simpl in *. lia. }
           intros w3 L3 C3 E3 T3. apply Msat_bind. apply Msat_make_error__.
           intros w4 L4 O4 E4 T4. apply Msat_ret.
           split; [eauto|]. split; [congruence|]. simpl. split; [discriminate|]. intros _.
           split; [own_solve|]. split; [|by rewrite E4].
           right. split; auto. intros ?. apply F2. eapply no_fail_wle; eauto.
        -- intros w2 b2 L2 O2 E2 T2. apply Msat_ret.
           split; [eauto|]. split; [congruence|]. simpl. split; [|congruence]. intros _.
           split; [own_solve|]. split; [congruence|]. repeat split; eauto.
           rewrite decide_False by lia. eauto.
      * apply Msat_ret. split; [eauto|]. split; [congruence|]. simpl. split; [|congruence]. intros _.
        split; [own_solve|]. repeat split; eauto.
        rewrite decide_True by lia. auto.
Qed.

End Rep.
