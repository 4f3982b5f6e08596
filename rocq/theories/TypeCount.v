(** Grouping of the points by type (iscc_type_count). *)

From stdpp Require Import prelude list sorting.
From Coq Require Import NArith ZArith.
From Verif Require Import Base World Mem Digraph DigraphRep DigraphOps DigraphDiff Float Spi Options Arrays GraphSpec AssignSpec Seeds SeedsProof SeedsExcl Nng NngGraph NngSize NngAssign NngStage.

(** Points among [l] with label [t]. *)
Definition of_type (tl : list nat) (t : nat) (l : list nat) : list nat := filter (fun x => tl !! x = Some t) l.
(** Points of a data set of [n] points with label [t]. *)
Definition group (tl : list nat) (n t : nat) : list nat := of_type tl t (seq 0 n).

Lemma filled_pointwise {A} (c : list (option A)) xs : length xs <= length c ->
  (forall j x, xs !! j = Some x -> c !! j = Some (Some x)) -> filled c xs.
Proof.
  intros Hl H. exists (drop (length xs) c). rewrite <- (take_drop (length xs) c) at 1. f_equal. apply list_eq. intros i.
  destruct (decide (i < length xs)) as [Hi|Hi].
  - rewrite lookup_take by done. destruct (lookup_lt_is_Some_2 xs i Hi) as [x Hx]. rewrite list_lookup_fmap, Hx. simpl. auto.
  - rewrite lookup_take_ge by lia. rewrite list_lookup_fmap, lookup_ge_None_2 by lia. done.
Qed.

Lemma of_type_snoc tl t l x : of_type tl t (l ++ [x]) = of_type tl t l ++ (if decide (tl !! x = Some t) then [x] else []).
Proof. unfold of_type. rewrite filter_app, (filter_cons _ x []), filter_nil. done. Qed.

Lemma offs_fmap (f : nat -> list nat) m k : k <= m -> offs (f <$> seq 0 m) k = length (concat (f <$> seq 0 k)).
Proof.
  intros H. unfold offs. rewrite <- fmap_take. replace m with (k + (m - k)) by lia. rewrite seq_app, take_app_alt by (by rewrite seq_length). done.
Qed.

Lemma concat_add_one (f f' : nat -> list nat) m t0 x : t0 < m -> (forall t, f' t = f t ++ (if decide (t = t0) then [x] else [])) ->
  length (concat (f' <$> seq 0 m)) = S (length (concat (f <$> seq 0 m))).
Proof.
  intros Ht Hf. assert (forall k, length (concat (f' <$> seq 0 k)) = length (concat (f <$> seq 0 k)) + (if decide (t0 < k) then 1 else 0)) as H.
  { induction k as [|k IH]; [done|]. rewrite seq_S, !fmap_app, !concat_app, !app_length, IH. simpl. rewrite Hf, !app_nil_r, app_length.
    destruct (decide (k = t0)) as [->|Hne]; simpl.
    - rewrite (decide_False (P := t0 < t0)) by lia. rewrite decide_True by lia. lia.
    - destruct (decide (t0 < k)), (decide (t0 < S k)); lia. }
  rewrite H, decide_True by done. lia.
Qed.

Lemma of_type_total tl m l : Forall (fun x => exists t, tl !! x = Some t /\ t < m) l ->
  length (concat ((fun t => of_type tl t l) <$> seq 0 m)) = length l.
Proof.
  induction l as [|x l IH] using rev_ind; intros H.
  - unfold of_type. simpl. induction (seq 0 m) as [|? ? IH]; [done|]. simpl. exact IH.
  - apply Forall_app in H as [Hl Hx]. inversion_clear Hx as [|? ? (t0 & Ht0 & Htm) _].
    rewrite (concat_add_one (fun t => of_type tl t l) _ m t0 x Htm).
    + rewrite IH by done. rewrite app_length. simpl. lia.
    + intros t. rewrite of_type_snoc. f_equal. destruct (decide (tl !! x = Some t)), (decide (t = t0)); congruence.
Qed.

(** The labels are below [nt] and there are enough of them. *)
Definition types_ok (n nt : nat) (tcons tl : list nat) : Prop :=
  0 < nt /\ nt <= length tcons /\ n <= length tl /\ Forall (fun t => t < nt) (take n tl).

Lemma types_label n nt tcons tl x : types_ok n nt tcons tl -> x < n -> exists t, tl !! x = Some t /\ t < nt.
Proof.
  intros (_ & _ & Hl & Hf) Hx. destruct (lookup_lt_is_Some_2 tl x) as [t Ht]; [lia|]. exists t. split; [done|].
  eapply (Forall_lookup_1 _ _ x t Hf). rewrite lookup_take by done. done.
Qed.

Definition tsum (nt : nat) (tcons : list nat) : nat := sum_list (take nt tcons).

Lemma sum_take_S (l : list nat) i x : l !! i = Some x -> sum_list (take (S i) l) = sum_list (take i l) + x.
Proof. intros H. rewrite (take_S_r _ _ _ H). rewrite sum_list_with_app. simpl. lia. Qed.

Section TypeCount.
Context (n nt : nat) (tcons tl : list nat).
Hypothesis (Hty : types_ok n nt tcons tl).

Notation grp := (group tl n).
Definition groups : list (list nat) := grp <$> seq 0 nt.

Lemma groups_total : length (concat groups) = n.
Proof.
  unfold groups, group. rewrite of_type_total; [apply seq_length|]. apply Forall_forall. intros x Hx%elem_of_seq. eapply types_label; eauto. lia.
Qed.

Lemma groups_lookup t : t < nt -> groups !! t = Some (grp t).
Proof. intros H. unfold groups. by rewrite list_lookup_fmap, lookup_seq_lt. Qed.

Lemma offs_group t : t < nt -> offs groups (S t) = offs groups t + length (grp t).
Proof. intros H. apply offs_S. by apply groups_lookup. Qed.

Lemma offs_groups_le t : offs groups t <= n.
Proof. rewrite <- groups_total. apply offs_le_all. Qed.

Lemma group_take i : i <= n -> forall t, of_type tl t (seq 0 i) = take (length (of_type tl t (seq 0 i))) (grp t).
Proof.
  intros Hi t. unfold group. replace n with (i + (n - i)) by lia. rewrite seq_app. unfold of_type. rewrite filter_app.
  by rewrite take_app_alt.
Qed.

(** Counting. *)
Lemma count_sat B b : Rsat B (forR n 0 (farr b (replicate nt 0)) (fun i gs =>
        let! t := lget tl i in
        let! x := aget gs t in
        aset gs t (x + 1))) (fun o => o = farr b (length <$> groups)).
Proof.
  apply (forR_sat0 B (fun i o => o = farr b ((fun t => length (of_type tl t (seq 0 i))) <$> seq 0 nt))).
  - do 2 f_equal. f_equal. apply list_eq. intros i. rewrite list_lookup_fmap. destruct (decide (i < nt)) as [Hi|Hi].
    + rewrite lookup_replicate_2 by done. by rewrite lookup_seq_lt.
    + rewrite lookup_seq_ge by lia. rewrite lookup_ge_None_2; [done|]. rewrite replicate_length. lia.
  - intros i o Hi ->. destruct (types_label _ _ _ _ i Hty Hi) as (t & Ht & Htn). rewrite (lget_ok _ _ _ Ht). cbn [Rbind].
    rewrite (aget_farr _ _ _ (length (of_type tl t (seq 0 i)))) by (by rewrite list_lookup_fmap, lookup_seq_lt). cbn [Rbind].
    rewrite aset_farr by (by rewrite fmap_length, seq_length). cbn [Rsat]. do 2 f_equal. f_equal. apply list_eq. intros j.
    destruct (decide (j < nt)) as [Hj|Hj].
    + rewrite list_lookup_fmap, lookup_seq_lt by done. cbn [fmap option_fmap option_map]. rewrite seq_S, of_type_snoc, app_length. simpl.
      destruct (decide (t = j)) as [->|Hne].
      * rewrite list_lookup_insert by (by rewrite fmap_length, seq_length). by rewrite decide_True.
      * rewrite list_lookup_insert_ne by done. rewrite list_lookup_fmap, lookup_seq_lt by done. simpl. rewrite decide_False by congruence. simpl. f_equal. lia.
    + rewrite !lookup_ge_None_2; [done| |]; rewrite ?insert_length, fmap_length, seq_length; lia.
  - intros o ->. do 2 f_equal. f_equal. unfold groups. by rewrite <- list_fmap_compose.
Qed.

(** Checking the constraints. *)
Lemma check_cons_sat B b : (N.of_nat n <= u32max \/ N.of_nat (tsum nt tcons) <= u32max)%N ->
  Rsat B (loopR (T := unit) nt 0 0 (fun i sum =>
        let! x := aget (farr b (length <$> groups)) i in
        let! c := lget tcons i in
        if decide (x < c) then Ok (inr tt) else Ok (inl (wrapN u32max (sum + c)))))
   (fun r => match r with
     | inr _ => exists t c, t < nt /\ tcons !! t = Some c /\ length (grp t) < c
     | inl sum => sum = tsum nt tcons /\ (forall t c, t < nt -> tcons !! t = Some c -> c <= length (grp t)) end).
Proof.
  intros Hw. eapply Rsat_mono; [apply (loopR_sat B (fun i sum => sum = sum_list (take i tcons) /\ sum <= offs groups i /\ (forall t c, t < i -> tcons !! t = Some c -> c <= length (grp t)))
    (fun _ => exists t c, t < nt /\ tcons !! t = Some c /\ length (grp t) < c))|].
  - splits; auto; lia.
  - intros i sum Hi (-> & Hle & Hall). destruct Hty as (_ & Hlt & _ & _). destruct (lookup_lt_is_Some_2 tcons i) as [c Hc]; [lia|].
    rewrite (aget_farr _ _ _ (length (grp i))) by (by rewrite list_lookup_fmap, groups_lookup by lia). cbn [Rbind].
    rewrite (lget_ok _ _ _ Hc). cbn [Rbind]. destruct (decide (length (grp i) < c)) as [Hlc|Hlc].
    + simpl. exists i, c. splits; auto. lia.
    + cbn [Rsat]. assert (sum_list (take i tcons) + c <= offs groups (S i)) as Hle2 by (rewrite offs_group by lia; lia).
      pose proof (offs_groups_le (S i)). rewrite wrapN_small.
      * rewrite (sum_take_S _ _ _ Hc). splits; auto. intros t c' Ht Hc'. destruct (decide (t = i)) as [->|]; [|eapply Hall; eauto; lia].
        assert (c' = c) as -> by congruence. lia.
      * destruct Hw as [Hw|Hw]; [lia|]. unfold tsum in Hw. rewrite <- (take_drop (S i) (take nt tcons)), take_take, Nat.min_l in Hw by lia.
        rewrite sum_list_with_app, (sum_take_S _ _ _ Hc) in Hw. lia.
  - intros [sum|]; [|auto]. intros (-> & _ & H). split; [done|]. intros t c Ht. apply H. lia.
Qed.

(** Ends of the groups. *)
Lemma ends_sat B b tb : Rsat B (
            let! x := aget (farr b (length <$> groups)) 0 in
            let! tg := aset (Some (Arr tb (fresh nat nt))) 0 x in
            forR (nt - 1) 1 tg (fun i tg =>
              let! p := aget tg (i - 1) in
              let! x := aget (farr b (length <$> groups)) i in
              aset tg i (p + x)))
   (fun o => o = farr tb ((fun t => offs groups (S t)) <$> seq 0 nt)).
Proof.
  pose proof Hty as (Hnt & _). assert (length (fresh nat nt) = nt) as Hfr by (unfold fresh; by rewrite replicate_length).
  rewrite (aget_farr _ _ _ (length (grp 0))) by (by rewrite list_lookup_fmap, groups_lookup). cbn [Rbind].
  rewrite aset_cells by lia. cbn [Rbind]. eapply Rsat_mono.
  - apply (forR_sat B (fun j o => exists c, o = Some (Arr tb c) /\ length c = nt /\ filled c ((fun t => offs groups (S t)) <$> seq 0 j))).
    + eexists. split; [done|]. rewrite insert_length. split; [done|].
      change ((fun t => offs groups (S t)) <$> seq 0 1) with ([] ++ [offs groups 1]). rewrite offs_group, offs_0 by done. apply filled_snoc'; [apply filled_nil|done|lia].
    + intros j o Hj (c & -> & Hc & Hf). rewrite (aget_cells _ _ _ (offs groups j)).
      2:{ eapply filled_lookup; [exact Hf|]. rewrite list_lookup_fmap, lookup_seq_lt by lia. simpl. do 2 f_equal. lia. }
      cbn [Rbind]. rewrite (aget_farr _ _ _ (length (grp j))) by (by rewrite list_lookup_fmap, groups_lookup by lia). cbn [Rbind].
      rewrite aset_cells by lia. cbn [Rsat]. eexists. split; [done|]. rewrite insert_length. split; [done|].
      rewrite seq_S, fmap_app. rewrite <- offs_group by lia. apply filled_snoc'; [done|by rewrite fmap_length, seq_length|lia].
  - cbv beta. intros o (c & -> & Hc & Hf). replace (1 + (nt - 1)) with nt in Hf by lia. assert (length ((fun t => offs groups (S t)) <$> seq 0 nt) = length c) as Hl by (by rewrite fmap_length, seq_length).
    by rewrite (filled_full _ _ Hf (eq_sym Hl)).
Qed.

(** Placing the points. *)
Lemma place_sat B pb tb :
  Rsat B (forR n 0 (Some (Arr pb (fresh nat n)), farr tb ((fun t => offs groups (S t)) <$> seq 0 nt)) (fun i '(ps, tg) =>
            let! t := lget tl i in
            let! p := aget tg t in
            if decide (p = 0) then Bad Arith else
            let! tg := aset tg t (p - 1) in
            let! ps := aset ps (p - 1) i in
            Ok (ps, tg)))
   (fun '(ps, tg) => tg = farr tb (offs groups <$> seq 0 nt) /\ exists c, ps = Some (Arr pb c) /\
      forall t, t < nt -> filled (drop (offs groups t) c) (reverse (grp t))).
Proof.
  set (num := fun i t => length (of_type tl t (seq 0 i))).
  assert (forall i t, i <= n -> num i t <= length (grp t)) as Hnum.
  { intros i t Hi. unfold num. rewrite (group_take i Hi t). rewrite take_length. lia. }
  eapply Rsat_mono.
  - apply (forR_sat B (fun i '(ps, tg) => tg = farr tb ((fun t => offs groups (S t) - num i t) <$> seq 0 nt) /\ exists c, ps = Some (Arr pb c) /\ length c = n /\
      forall t j x, t < nt -> grp t !! j = Some x -> j < num i t -> c !! (offs groups (S t) - 1 - j) = Some (Some x))).
    + split.
      * do 2 f_equal. f_equal. apply list_fmap_ext. intros i t _. unfold num. simpl. lia.
      * eexists. split; [done|]. split; [unfold fresh; by rewrite replicate_length|]. intros t j x _ _ Hj. unfold num, of_type in Hj. simpl in Hj. lia.
    + simpl. intros i [ps tg] Hi (-> & c & -> & Hc & Hpl). destruct (types_label _ _ _ _ i Hty) as (t & Ht & Htn); [lia|].
      rewrite (lget_ok _ _ _ Ht). cbn [Rbind].
      rewrite (aget_farr _ _ _ (offs groups (S t) - num i t)) by (by rewrite list_lookup_fmap, lookup_seq_lt). cbn [Rbind].
      assert (num (S i) t = S (num i t)) as HS. { unfold num. rewrite seq_S, of_type_snoc, app_length. simpl. rewrite decide_True by done. simpl. lia. }
      assert (forall t', t' <> t -> num (S i) t' = num i t') as HSne.
      { intros t' Hne. unfold num. rewrite seq_S, of_type_snoc, app_length. simpl. rewrite decide_False by congruence. simpl. lia. }
      pose proof (Hnum (S i) t ltac:(lia)) as Hle. pose proof (offs_group t Htn) as Ho. pose proof (offs_groups_le (S t)) as Hon.
      rewrite decide_False by lia. rewrite aset_farr by (by rewrite fmap_length, seq_length). cbn [Rbind].
      rewrite aset_cells by lia. cbn [Rbind Rsat]. split.
      * do 2 f_equal. f_equal. apply list_eq. intros t'. destruct (decide (t' < nt)) as [Hj|Hj].
        -- rewrite list_lookup_fmap, lookup_seq_lt by done. cbn [fmap option_fmap option_map]. destruct (decide (t = t')) as [<-|Hne].
           ++ rewrite list_lookup_insert by (by rewrite fmap_length, seq_length). f_equal. simpl. lia.
           ++ rewrite list_lookup_insert_ne by done. rewrite list_lookup_fmap, lookup_seq_lt by done. simpl. f_equal. rewrite HSne by done. done.
        -- rewrite !lookup_ge_None_2; [done| |]; rewrite ?insert_length, fmap_length, seq_length; lia.
      * eexists. split; [done|]. rewrite insert_length. split; [done|]. intros t' j x Ht' Hx Hj.
        destruct (decide (t' = t)) as [->|Hne].
        -- rewrite HS in Hj. destruct (decide (j = num i t)) as [->|Hj'].
           ++ assert (x = i) as ->.
              { assert (of_type tl t (seq 0 (S i)) !! num i t = Some i) as Hlast.
                { rewrite seq_S, of_type_snoc. simpl. rewrite decide_True by done. by rewrite list_lookup_middle. }
                rewrite (group_take (S i)) in Hlast by lia. apply lookup_take_Some in Hlast as [Hlast _]. congruence. }
              replace (offs groups (S t) - 1 - num i t) with (offs groups (S t) - num i t - 1) by lia. apply list_lookup_insert. lia.
           ++ rewrite list_lookup_insert_ne by lia. apply Hpl; auto. lia.
        -- rewrite HSne in Hj by done. pose proof (lookup_lt_Some _ _ _ Hx). pose proof (offs_group t' Ht') as Ho'.
           rewrite list_lookup_insert_ne; [by apply Hpl|]. intros Heq.
           destruct (decide (t' < t)).
           ++ pose proof (offs_mono groups (S t') t ltac:(lia)). lia.
           ++ pose proof (offs_mono groups (S t) t' ltac:(lia)). lia.
  - simpl. intros [ps tg] (-> & c & -> & Hc & Hpl). split.
    + do 2 f_equal. f_equal. apply list_fmap_ext. intros i t Hit. apply lookup_seq in Hit as [-> Hi].
      change (num n (0 + i)) with (length (grp i)). rewrite offs_group by done. simpl. lia.
    + exists c. split; [done|]. intros t Ht. pose proof (offs_group t Ht). pose proof (offs_groups_le (S t)).
      apply filled_pointwise; [rewrite reverse_length, drop_length; lia|].
      intros j x Hx. rewrite lookup_drop. pose proof (lookup_lt_Some _ _ _ Hx) as Hj. rewrite reverse_length in Hj.
      rewrite reverse_lookup in Hx by done. replace (offs groups t + j) with (offs groups (S t) - 1 - (length (grp t) - S j)) by lia.
      apply Hpl; auto. change (num n t) with (length (grp t)). lia.
Qed.

Definition tc_blocks (tc : type_count) : list nat := arr_blk (tc_size tc) ++ arr_blk (tc_store tc) ++ arr_blk (tc_groups tc).

Lemma Msat_free_tc B tc w (Q : unit -> world -> Prop) : (forall x, cnt x (tc_blocks tc) <= cnt x (w_live w)) ->
  (forall w', wle w w' -> own w (tc_blocks tc) w' -> w_err w' = w_err w -> Q tt w') -> Msat B (free_tc tc) w Q.
Proof.
  unfold tc_blocks. intros Hb HQ. unfold free_tc.
  apply Msat_bind, Msat_free_arr; [blk|]. intros w1 L1 C1 E1 _.
  apply Msat_bind, Msat_free_arr; [blk|]. intros w2 L2 C2 E2 _.
  apply Msat_free_arr; [blk|]. intros w3 L3 C3 E3 _. apply HQ; [wl|blk|congruence].
Qed.

(** The groups as found by the loop over the types. *)
Record tc_rep (tc : type_count) : Prop := {
  tr_sum : tc_sum tc = tsum nt tcons;
  tr_size : exists b, tc_size tc = farr b (length <$> groups);
  tr_groups : exists b, tc_groups tc = farr b (offs groups <$> seq 0 nt);
  tr_store : exists b c, tc_store tc = Some (Arr b c) /\ forall t, t < nt -> filled (drop (offs groups t) c) (reverse (grp t))
}.

Lemma Msat_type_count B size w :
  (N.of_nat n <= u32max \/ N.of_nat (tsum nt tcons) <= u32max)%N ->
  Msat B (get_type_count n size nt tcons tl) w (fun '(ec, tc) w' =>
    wle w w' /\
    ((ec = ER_OK /\ own w' (tc_blocks tc) w /\ w_err w' = w_err w /\ tc_rep tc /\ tsum nt tcons <= size /\
       (forall t c, t < nt -> tcons !! t = Some c -> c <= length (grp t))) \/
     (ec <> ER_OK /\ own w' [] w /\ e_code (w_err w') = ec /\
       ((ec = ER_NO_MEMORY /\ ~ no_fail w) \/
        (ec = ER_NO_SOLUTION /\ exists t c, t < nt /\ tcons !! t = Some c /\ length (grp t) < c) \/
        (ec = ER_INVALID_INPUT /\ size < tsum nt tcons))))).
Proof.
  intros Hw. unfold get_type_count.
  apply Msat_bind. apply (Msat_mono _ _ _ (fun gs w' => wle w w' /\ own w' (arr_blk gs) w /\ w_err w' = w_err w /\
    (gs = None /\ ~ no_fail w \/ exists b, gs = farr b (replicate nt 0)))).
  { apply Msat_calloc_arr; [intros w1 L1 O1 E1 _ F1; splits; auto|]. intros w1 b L1 O1 E1 _. splits; auto. right. exists b. by rewrite fmap_replicate. }
  intros gs w1 (L1 & O1 & E1 & H1).
  apply Msat_bind. apply (Msat_mono _ _ _ (fun ps w' => wle w1 w' /\ own w' (arr_blk ps) w1 /\ w_err w' = w_err w1 /\
    (ps = None /\ ~ no_fail w1 \/ exists b, ps = Some (Arr b (fresh nat n))))).
  { apply Msat_malloc_arr; [intros w2 L2 O2 E2 _ F2; splits; auto|]. intros w2 b L2 O2 E2 _. splits; eauto. }
  intros ps w2 (L2 & O2 & E2 & H2).
  apply Msat_bind. apply (Msat_mono _ _ _ (fun tg w' => wle w2 w' /\ own w' (arr_blk tg) w2 /\ w_err w' = w_err w2 /\
    (tg = None /\ ~ no_fail w2 \/ exists b, tg = Some (Arr b (fresh nat nt))))).
  { apply Msat_malloc_arr; [intros w3 L3 O3 E3 _ F3; splits; auto|]. intros w3 b L3 O3 E3 _. splits; eauto. }
  intros tg w3 (L3 & O3 & E3 & H3).
  assert (gs = None \/ ps = None \/ tg = None -> ~ no_fail w) as Hnf.
  { intros Hor F. pose proof (no_fail_wle _ _ F L1) as F1. pose proof (no_fail_wle _ _ F1 L2) as F2.
    destruct H1 as [[-> H1]|[? ->]]; [done|]. destruct H2 as [[-> H2]|[? ->]]; [done|]. destruct H3 as [[-> H3]|[? ->]]; [done|]. naive_solver. }
  assert (own w3 (arr_blk gs ++ arr_blk ps ++ arr_blk tg) w) as O by blk.
  assert (forall B', (gs = None \/ ps = None \/ tg = None) -> Msat B' (let* _ := free_tc (TC 0 gs ps tg) in
      let* ec := make_error ER_NO_MEMORY src_nng 874 in Mret (ec, TC 0 gs ps tg)) w3 (fun '(ec, tc) w' =>
    wle w w' /\
    ((ec = ER_OK /\ own w' (tc_blocks tc) w /\ w_err w' = w_err w /\ tc_rep tc /\ tsum nt tcons <= size /\
       (forall t c, t < nt -> tcons !! t = Some c -> c <= length (grp t))) \/
     (ec <> ER_OK /\ own w' [] w /\ e_code (w_err w') = ec /\
       ((ec = ER_NO_MEMORY /\ ~ no_fail w) \/
        (ec = ER_NO_SOLUTION /\ exists t c, t < nt /\ tcons !! t = Some c /\ length (grp t) < c) \/
        (ec = ER_INVALID_INPUT /\ size < tsum nt tcons)))))) as Hfail.
  { intros B' Hor. apply Msat_bind, Msat_free_tc; [unfold tc_blocks; simpl; blk|]. unfold tc_blocks; simpl. intros w4 L4 O4 E4.
    apply Msat_bind, Msat_make_error__. intros w5 L5 O5 E5 _. apply Msat_ret. split; [wl|]. right. splits; auto; [blk|by rewrite E5]. }
  destruct H1 as [[-> _]|[gb ->]]; [apply Hfail; auto|].
  destruct H2 as [[-> _]|[pb ->]]; [apply Hfail; auto|].
  destruct H3 as [[-> _]|[tb ->]]; [apply Hfail; auto|]. clear Hfail. simpl in O.
  apply Msat_bind, Msat_lift. eapply Rsat_mono; [apply count_sat|]. intros o ->.
  apply Msat_bind, Msat_lift. eapply Rsat_mono; [by apply check_cons_sat|]. intros [sum|[]] Hr.
  2:{ apply Msat_bind, Msat_free_tc; [unfold tc_blocks; simpl; blk|]. unfold tc_blocks; simpl. intros w4 L4 O4 E4.
      apply Msat_bind, Msat_make_error__. intros w5 L5 O5 E5 _. apply Msat_ret. split; [wl|]. right. splits; auto; [blk|by rewrite E5]. }
  destruct Hr as [-> Hall]. destruct (decide (size < tsum nt tcons)) as [Hs|Hs].
  { apply Msat_bind, Msat_free_tc; [unfold tc_blocks; simpl; blk|]. unfold tc_blocks; simpl. intros w4 L4 O4 E4.
    apply Msat_bind, Msat_make_error__. intros w5 L5 O5 E5 _. apply Msat_ret. split; [wl|]. right. splits; auto; [blk|by rewrite E5]. }
  apply Msat_bind, Msat_lift. eapply Rsat_mono; [apply ends_sat|]. intros o ->.
  apply Msat_bind, Msat_lift. eapply Rsat_mono; [apply place_sat|]. intros [ps' tg'] (-> & c & -> & Hc).
  apply Msat_ret. split; [wl|]. left. splits; auto; [congruence| |lia].
  constructor; simpl; eauto.
Qed.
End TypeCount.
