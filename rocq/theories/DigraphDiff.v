(** Functional correctness of difference and transpose
    (src/digraph_operations.c 147-237). *)

From stdpp Require Import prelude list sorting.
From Coq Require Import NArith ZArith.
From Verif Require Import Base World Mem Digraph DigraphRep DigraphOps DigraphUnion.

Lemma forR_seq {S} n i (s : S) f : forR n i s f = foldR f s (seq i n).
Proof. revert i s. induction n as [|n IH]; intros i s; simpl; auto. destruct (f i s); simpl; auto. Qed.

(** Every cell of a row is written iff the head array holds the rows. *)
Lemma concat_lookup_inv (rows : list (list nat)) i x : concat rows !! i = Some x ->
  exists v r j, rows !! v = Some r /\ r !! j = Some x /\ i = offs rows v + j.
Proof.
  revert i. induction rows as [|r rows IH]; intros i Hi; simpl in Hi; [discriminate|].
  apply lookup_app_Some in Hi as [Hi|[Hle Hi]].
  - exists 0, r, i. auto.
  - apply IH in Hi as (v & r' & j & Hv & Hj & Ei). exists (S v), r', j. splits; auto.
    unfold offs in *. simpl. rewrite app_length. lia.
Qed.

Lemma filled_rows (c : list (option nat)) rows :
  (forall v r j x, rows !! v = Some r -> r !! j = Some x -> c !! (offs rows v + j) = Some (Some x)) ->
  length (concat rows) <= length c -> filled c (concat rows).
Proof.
  intros H Hl. exists (drop (length (concat rows)) c).
  rewrite <- (take_drop (length (concat rows)) c) at 1. f_equal.
  apply list_eq. intros i. rewrite list_lookup_fmap.
  destruct (concat rows !! i) as [x|] eqn:E.
  - pose proof (lookup_lt_Some _ _ _ E). rewrite lookup_take by lia. simpl.
    apply concat_lookup_inv in E as (v & r & j & Hv & Hj & ->). eauto.
  - apply lookup_ge_None_1 in E. rewrite lookup_take_ge by lia. reflexivity.
Qed.

Section Diff.
Context (cfg : config).
Notation dg_rep := (dg_rep cfg).

(** Row of the difference: the first [k] arcs that are not in the subtrahend. *)
Definition diff_row (k : nat) (sub r : list nat) : list nat := take k (filter (fun x => x ∉ sub) r).
Definition diff_rows (k : nat) (rows sub : list (list nat)) : list (list nat) :=
  imap (fun v r => diff_row k (row sub v) r) rows.

Lemma diff_rows_length k rows sub : length (diff_rows k rows sub) = length rows.
Proof. apply imap_length. Qed.

Lemma diff_rows_nil k rows sub : concat rows = [] -> diff_rows k rows sub = rows.
Proof.
  intros H. apply list_eq. intros i. unfold diff_rows. rewrite list_lookup_imap.
  destruct (rows !! i) as [r|] eqn:E; [|reflexivity]. simpl. f_equal.
  assert (r = []) as ->; [|by destruct k].
  destruct r as [|x r]; auto. exfalso.
  assert (x ∈ concat rows) as Hx.
  { apply elem_of_list_lookup. exists (offs rows i + 0). eapply concat_lookup; eauto. }
  rewrite H in Hx. by apply elem_of_nil in Hx.
Qed.

Lemma Msat_difference B dg sub rows srows k w :
  dg_rep dg rows -> dg_rep sub srows -> length srows = length rows ->
  (forall x, cnt x (dg_blocks dg) <= cnt x (w_live w)) ->
  Msat B (digraph_difference cfg dg sub k) w (fun r w' =>
    wle w w' /\ w_tick w' = w_tick w /\
    (forall x, cnt x (w_live w') + cnt x (dg_blocks dg) = cnt x (w_live w) + cnt x (dg_blocks r.2)) /\
    (r.1 = ER_OK -> dg_rep r.2 (diff_rows k rows srows) /\
       (dg_max r.2 = length (concat (diff_rows k rows srows)) \/ concat rows = []) /\ w_err w' = w_err w) /\
    (r.1 <> ER_OK -> r.1 = ER_NO_MEMORY /\ ~ no_fail w /\ e_code (w_err w') = r.1)).
Proof.
  intros H Hsub Hsl Hb. unfold digraph_difference.
  apply Msat_bind, Msat_lift. rewrite (is_empty_rep cfg _ _ H). simpl.
  case_bool_decide as He.
  { apply Msat_ret. simpl. splits; auto; try congruence. intros _. rewrite diff_rows_nil by auto. auto. }
  apply Msat_bind. apply Msat_malloc_arr.
  { intros w1 L1 O1 E1 T1 F1. apply Msat_bind, Msat_make_error__. intros w2 L2 O2 E2 T2.
    apply Msat_ret. simpl. splits; try congruence; eauto.
    - intros x. specialize (O1 x). specialize (O2 x). simpl in *. lia.
    - intros _. splits; auto. by rewrite E2. }
  intros w1 rb L1 O1 E1 T1.
  pose proof H as [Hn (tb & tc & Et & Htr) Hh Hl Ha].
  destruct (dg_head dg) as [[hb h0]|] eqn:Eh; [|exfalso; apply He, Hh].
  simpl in Hh. destruct Hh as (Hm & Hp & Hf).
  apply Msat_bind, Msat_lift. rewrite Hn. set (n := length rows) in *.
  apply Rsat_bind. eapply Rsat_mono; [apply reset_markers_sat; unfold fresh; apply replicate_length|].
  intros mk0 Hmk0. simpl in mk0, Hmk0.
  set (Inv := fun v (s : markers * option (arr nat) * option (arr nat) * nat) => let '(mk, head, tail, hw) := s in
     mk_in n mk (fun u => u < v) /\
     comp_inv rows h0 hb tb (take v (diff_rows k rows srows)) v head tail hw).
  eapply Rsat_bind_mono.
  { eapply (forR_sat0 B Inv _ _ _ (fun s => Inv n s)).
    - unfold Inv. split. { eapply mk_in_mono; [exact Hmk0|]. simpl; tauto. }
      split; [by rewrite take_0|]. split; [by rewrite take_0|]. split; [lia|]. split.
      + exists h0. rewrite take_0. repeat split; auto. apply filled_nil.
      + exists tc. destruct Htr as [Ht1 Ht2]. repeat split; auto; intros; [lia|apply Ht2; lia].
    - intros v [[[mk head] tail] hw] Hv HI.
      destruct (lookup_lt_is_Some_2 rows v Hv) as [r Hr].
      unfold Inv in HI. destruct HI as (Hmk & Hnl & Hhw & Hle & (hc & -> & Hhl & Hfc & Hun) & (tc' & -> & Htl & Ht1 & Ht2)).
      rewrite (for_arcs_fold cfg sub srows v (row srows v)) by (auto; apply row_lookup; lia).
      apply Rsat_bind. eapply Rsat_mono.
      { apply (foldR_sat B (fun pre mk => mk_in n mk (fun u => u < S v) /\ mk_ok n mk v pre)).
        - split; [eapply mk_in_mono; [exact Hmk|simpl; lia]|]. eapply mk_in_ok; [exact Hmk|simpl; lia].
        - intros pre x post s Eq [Hi Ho]. pose proof Hi as [Hils _].
          assert (x < n) as Hx.
          { rewrite <- Hsl. eapply (rep_lookup_lt cfg _ _ v); [exact Hsub|apply row_lookup; lia|].
            rewrite Eq. set_solver. }
          apply Rsat_cset; [lia|]. split; [apply mk_in_set; auto; lia|].
          destruct (mk_ok_set n s v pre x Ho Hx) as [G1 G2]. split; auto. intros u Hu.
          destruct (G2 u Hu) as (m & Em & Hmm). exists m. split; auto. rewrite Hmm. set_solver. }
      intros mk1 [Hi1 Ho1].
      apply Rsat_bind. eapply Rsat_cget. { simpl. apply Ht2. lia. }
      apply Rsat_bind. eapply Rsat_cget. { simpl. apply Ht2. lia. }
      apply Rsat_bind. simpl. rewrite cset_ok by lia. simpl.
      rewrite Nat.add_1_r, (offs_S _ _ _ Hr).
      rewrite decide_False by lia. apply Rsat_bind.
      replace (offs rows v + length r - offs rows v) with (length r) by lia.
      set (base := concat (take v (diff_rows k rows srows))) in *.
      set (ft := fun l : list nat => filter (fun x => x ∉ row srows v) l).
      eapply Rsat_mono.
      { eapply (loopR_sat B (fun j (s : nat * option (arr nat) * nat) => let '(rc, head, hw) := s in
          let out := base ++ take k (ft (take (j - offs rows v) r)) in
          rc = length (take k (ft (take (j - offs rows v) r))) /\
          hw = length out /\ hw <= j /\
          exists hc, head = Some (Arr hb hc) /\ length hc = length h0 /\ filled hc out /\
            forall i, j <= i -> hc !! i = h0 !! i)
          (fun (s : nat * option (arr nat) * nat) => let '(rc, head, hw) := s in
          let out := base ++ take k (ft r) in
          hw = length out /\ hw <= offs rows v + length r /\
          exists hc, head = Some (Arr hb hc) /\ length hc = length h0 /\ filled hc out /\
            forall i, offs rows v + length r <= i -> hc !! i = h0 !! i)).
        - rewrite Nat.sub_diag, take_0. assert (take k (ft []) = []) as -> by (destruct k; reflexivity). simpl. rewrite app_nil_r.
          split; [auto|]. split; [auto|]. split; [lia|]. exists hc. auto.
        - intros j [[rc head] hw'] Hj (Erc & Ehw & Hlej & hc' & -> & Hhl' & Hf' & Hun').
          assert (j - offs rows v < length r) as Hjr by lia.
          destruct (lookup_lt_is_Some_2 r _ Hjr) as [x Hx].
          assert (hc' !! j = Some (Some x)) as Hcx.
          { rewrite Hun' by lia. eapply filled_lookup; [exact Hf|].
            replace j with (offs rows v + (j - offs rows v)) by lia. eapply concat_lookup; eauto. }
          set (p := take (j - offs rows v) r) in *.
          assert (j < length h0) as Hjh. { rewrite <- Hhl'. eapply lookup_lt_Some; eauto. }
          destruct (decide (rc < k)) as [Hrk|Hrk].
          + assert (length (ft p) < k) as Hpk. { rewrite take_length in Erc. lia. }
            rewrite (take_ge (ft p) k) in * by lia.
            apply Rsat_bind. simpl. eapply Rsat_cget; [exact Hcx|].
            assert (x < n) as Hxn. { eapply (rep_lookup_lt cfg _ _ v); eauto. eapply elem_of_list_lookup_2; eauto. }
            destruct Ho1 as [Hol Ho1]. destruct (Ho1 x Hxn) as (m & Em & Hmm).
            apply Rsat_bind. eapply Rsat_cget; [exact Em|].
            replace (S j - offs rows v) with (S (j - offs rows v)) by lia.
            rewrite (take_S_r _ _ _ Hx). fold p. unfold ft. rewrite filter_app. fold (ft p).
            destruct (decide (m <> Some v)) as [Hxv|Hxv].
            * rewrite filter_cons_True by (rewrite <- Hmm; auto). rewrite filter_nil.
              apply Rsat_bind. rewrite cset_ok by lia. simpl.
              rewrite too_many_arcs_wrap by (eapply too_many_arcs_mono; [|exact Ha]; lia).
              rewrite (take_ge (ft p ++ [x])) by (rewrite app_length; simpl; lia).
              rewrite app_assoc, !app_length in *. simpl in *.
              split; [lia|]. split; [lia|]. split; [lia|]. eexists. split; [reflexivity|].
              split; [by rewrite insert_length|]. split.
              -- apply filled_snoc'; auto; [rewrite app_length|]; lia.
              -- intros i Hi. rewrite list_lookup_insert_ne by lia. apply Hun'. lia.
            * rewrite filter_cons_False; [|intros Hc; apply Hc, Hmm; destruct (decide (m = Some v)); tauto].
              rewrite filter_nil, app_nil_r. simpl.
              rewrite (take_ge (ft p)) by lia.
              split; [auto|]. split; [auto|]. split; [lia|]. exists hc'. splits; auto.
              intros i Hi. apply Hun'. lia.
          + simpl. assert (take k (ft r) = take k (ft p)) as Etk.
            { assert (k <= length (ft p)) as Hkp. { rewrite take_length in Erc. lia. }
              rewrite <- (take_drop (j - offs rows v) r). fold p. unfold ft. rewrite filter_app. fold (ft p).
              rewrite take_app_le by lia. auto. }
            rewrite Etk. split; [auto|]. split; [lia|]. exists hc'. splits; auto.
            intros i Hi. apply Hun'. lia. }
      intros res Hres.
      assert (exists rc head hw', (match res with inl s => s | inr s => s end) = (rc, head, hw') /\
          let out := base ++ take k (ft r) in
          hw' = length out /\ hw' <= offs rows v + length r /\
          exists hc, head = Some (Arr hb hc) /\ length hc = length h0 /\ filled hc out /\
            forall i, offs rows v + length r <= i -> hc !! i = h0 !! i) as (rc & head & hw' & Eres & Ehw & Hlej & hc' & -> & Hhl' & Hf' & Hun').
      { destruct res as [[[rc head] hw']|[[rc head] hw']].
        - destruct Hres as (_ & Q). replace (offs rows v + length r - offs rows v) with (length r) in Q by lia.
          rewrite firstn_all in Q. exists rc, head, hw'. auto.
        - exists rc, head, hw'. auto. }
      rewrite Eres. simpl. unfold Inv, comp_inv.
      assert (take (S v) (diff_rows k rows srows) = take v (diff_rows k rows srows) ++ [take k (ft r)]) as Etake.
      { apply take_S_r. unfold diff_rows. rewrite list_lookup_imap, Hr. reflexivity. }
      rewrite Etake. rewrite concat_app. fold base. simpl. rewrite app_nil_r.
      split; [auto|].
      split. { rewrite app_length, Hnl. simpl. lia. }
      split; [auto|]. split; [by rewrite (offs_S _ _ _ Hr)|]. split.
      + exists hc'. splits; auto. intros j Hj. apply Hun'. by rewrite <- (offs_S _ _ _ Hr).
      + eexists. split; [reflexivity|]. split; [by rewrite insert_length|]. split.
        * intros j Hj. destruct (decide (j = v)) as [->|Hne].
          -- rewrite list_lookup_insert by lia. rewrite Hhw. f_equal. f_equal.
             rewrite offs_app_l by lia. by rewrite offs_all by lia.
          -- rewrite list_lookup_insert_ne by lia. rewrite offs_app_l by lia. apply Ht1. lia.
        * intros j Hj. rewrite list_lookup_insert_ne by lia. apply Ht2. lia.
    - intros s HI. exact HI. }
  intros [[[mk head] tail] hw] [_ HI].
  rewrite take_ge in HI by (rewrite diff_rows_length; unfold n; lia).
  destruct (comp_finish cfg _ _ _ _ _ _ _ _ HI) as (tail' & Eset & Hrep & Ehw & Bh & Bt).
  { apply Forall_lookup. intros i r Hr. unfold diff_rows in Hr. rewrite list_lookup_imap in Hr.
    destruct (rows !! i) as [r0|] eqn:E; [|discriminate]. injection Hr as <-.
    eapply Forall_lookup_1 in Hl; [|exact E]. simpl in Hl. apply Forall_take.
    apply Forall_forall. intros x Hx. apply elem_of_list_filter in Hx as [_ Hx]. eapply Forall_forall in Hl; eauto. }
  { lia. } { congruence. }
  fold n in Eset. rewrite Eset. simpl.
  apply Msat_bind. apply Msat_free_arr.
  { intros x. simpl. specialize (O1 x). simpl in *. lia. }
  intros w2 L2 C2 E2 T2. rewrite Hm.
  rewrite Ehw. eapply Msat_mono.
  - apply Msat_change_arc_storage; [exact Hrep|].
    intros x. specialize (Hb x). specialize (O1 x). specialize (C2 x). unfold dg_blocks in *. simpl. rewrite Bh, Bt.
    rewrite Eh, Et in Hb. simpl in *. lia.
  - intros [ec dg'] w' (L & T & C & O & F). split; [eauto|]. split; [congruence|]. split.
    + intros x. specialize (C x). specialize (O1 x). specialize (C2 x). unfold dg_blocks in *. rewrite Eh, Et. simpl in *.
      rewrite Bh, Bt in C. simpl in *. lia.
    + split.
      * intros E. destruct (O E) as (? & ? & ?). splits; auto. congruence.
      * intros E. destruct (F E) as (? & Hnf & ?). splits; auto. intros Hnf'. apply Hnf. eapply no_fail_wle; eauto.
Qed.

(** ** Transpose *)

(** All arcs (tail, head) in storage order. *)
Definition all_arcs (rows : list (list nat)) : list (nat * nat) :=
  concat ((fun v => pair v <$> row rows v) <$> seq 0 (length rows)).

(** Tails of the arcs of [P] pointing to [x]. *)
Definition tails_to (P : list (nat * nat)) (x : nat) : list nat :=
  (filter (fun p => p.2 = x) P).*1.

Definition transpose_row (rows : list (list nat)) (x : nat) : list nat := reverse (tails_to (all_arcs rows) x).
Definition transpose_rows (rows : list (list nat)) : list (list nat) :=
  transpose_row rows <$> seq 0 (length rows).

Lemma tails_to_snoc P v x y : tails_to (P ++ [(v, y)]) x = tails_to P x ++ (if decide (y = x) then [v] else []).
Proof.
  unfold tails_to. rewrite filter_app, fmap_app. f_equal.
  destruct (decide (y = x)); [rewrite filter_cons_True|rewrite filter_cons_False]; auto.
Qed.

Lemma all_arcs_heads rows : (all_arcs rows).*2 = concat rows.
Proof.
  unfold all_arcs. transitivity (concat (row rows <$> seq 0 (length rows))); [|by rewrite <- rows_seq].
  generalize (seq 0 (length rows)) as l. induction l as [|v l IH]; csimpl; auto.
  rewrite fmap_app, IH. f_equal. rewrite <- list_fmap_compose. by rewrite list_fmap_id.
Qed.

Lemma elem_of_concat {A} (x : A) ls : x ∈ concat ls <-> exists l, x ∈ l /\ l ∈ ls.
Proof.
  induction ls as [|l ls IH]; simpl.
  - split; [by intros ?%elem_of_nil | by intros (? & _ & ?%elem_of_nil)].
  - rewrite elem_of_app, IH. setoid_rewrite elem_of_cons. naive_solver.
Qed.

Lemma elem_of_all_arcs rows v x : (v, x) ∈ all_arcs rows <-> v < length rows /\ x ∈ row rows v.
Proof.
  unfold all_arcs. rewrite elem_of_concat. split.
  - intros (l & Hin & Hl). apply elem_of_list_fmap in Hl as (v' & -> & Hv').
    apply elem_of_list_fmap in Hin as (x' & [= -> ->] & Hx). apply elem_of_seq in Hv'. split; [lia|auto].
  - intros [Hv Hx]. exists (pair v <$> row rows v). split.
    + apply elem_of_list_fmap. eauto.
    + apply elem_of_list_fmap. exists v. split; auto. apply elem_of_seq. lia.
Qed.

Lemma all_arcs_fold {S} dg rows (s : S) (f : nat -> nat -> S -> R S) : dg_rep dg rows ->
  forR (length rows) 0 s (fun v s => for_arcs dg v s (f v)) =
  foldR (fun p s => f p.1 p.2 s) s (all_arcs rows).
Proof.
  intros H. rewrite forR_seq. unfold all_arcs. rewrite <- foldR_concat, foldR_fmap.
  apply foldR_ext_in. intros v s' Hv. apply elem_of_seq in Hv.
  rewrite (for_arcs_fold cfg dg rows v (row rows v)) by (auto; apply row_lookup; lia).
  rewrite foldR_fmap. reflexivity.
Qed.

Lemma tails_to_sum n P : Forall (fun p : nat * nat => p.2 < n) P ->
  sum_list ((fun x => length (tails_to P x)) <$> seq 0 n) = length P.
Proof.
  induction P as [|[v y] P IH] using rev_ind; intros HP.
  - simpl. rewrite sum_list_fmap_zero; auto.
  - apply Forall_app in HP as [HP Hy]. apply Forall_cons in Hy as [Hy _]. simpl in Hy.
    rewrite app_length. simpl. rewrite <- IH by auto.
    assert (forall l, sum_list ((fun x => length (tails_to (P ++ [(v, y)]) x)) <$> l) =
      sum_list ((fun x => length (tails_to P x)) <$> l) + length (filter (fun x => y = x) l)) as G.
    { induction l as [|z l IHl]; csimpl; auto. rewrite tails_to_snoc, app_length, IHl.
      destruct (decide (y = z)); [rewrite filter_cons_True|rewrite filter_cons_False]; auto; simpl; lia. }
    rewrite G. f_equal.
    assert (forall k, y < k + n -> k <= y -> length (filter (fun x => y = x) (seq k n)) = 1) as G2.
    { clear. induction n as [|n IH]; intros k H1 H2; [lia|]. simpl.
      destruct (decide (y = k)) as [->|].
      - rewrite filter_cons_True by auto. simpl. f_equal.
        clear. assert (forall j, k < j -> length (filter (fun x => k = x) (seq j n)) = 0) as G; [|apply G; lia].
        induction n as [|n IH]; intros j Hj; simpl; auto. rewrite filter_cons_False by lia. apply IH. lia.
      - rewrite filter_cons_False by auto. apply IH; lia. }
    apply G2; lia.
Qed.

Lemma all_arcs_lt dg rows : dg_rep dg rows -> Forall (fun p : nat * nat => p.2 < length rows) (all_arcs rows).
Proof.
  intros H. apply Forall_forall. intros [v x] Hp. apply elem_of_all_arcs in Hp as [Hv Hx]. simpl.
  eapply (rep_lookup_lt cfg _ _ v); eauto. by apply row_lookup.
Qed.

Lemma transpose_total dg rows : dg_rep dg rows ->
  length (outf (transpose_row rows) (length rows)) = length (concat rows).
Proof.
  intros H. unfold outf. rewrite length_concat_sum, <- list_fmap_compose.
  rewrite <- (all_arcs_heads rows), fmap_length.
  rewrite <- (tails_to_sum (length rows) (all_arcs rows)) by (eapply all_arcs_lt; eauto).
  f_equal. apply list_fmap_ext. intros i x _. unfold compose, transpose_row. by rewrite reverse_length.
Qed.

Lemma tails_to_bound dg rows : dg_rep dg rows -> tails_to (all_arcs rows) (length rows) = [].
Proof.
  intros H. pose proof (all_arcs_lt _ _ H) as Hlt.
  destruct (tails_to (all_arcs rows) (length rows)) as [|v l] eqn:E; auto. exfalso.
  assert (v ∈ tails_to (all_arcs rows) (length rows)) as Hv by (rewrite E; left).
  unfold tails_to in Hv. apply elem_of_list_fmap in Hv as (p & _ & Hp).
  apply elem_of_list_filter in Hp as [Hp Hin]. eapply Forall_forall in Hlt; eauto. simpl in Hlt. lia.
Qed.

Lemma tails_to_app P Q x : tails_to (P ++ Q) x = tails_to P x ++ tails_to Q x.
Proof. unfold tails_to. by rewrite filter_app, fmap_app. Qed.

Lemma Msat_transpose B dg rows w :
  dg_rep dg rows -> Msat B (digraph_transpose cfg dg) w
    (new_post cfg (transpose_rows rows) (length (concat rows)) w).
Proof.
  intros H. unfold digraph_transpose.
  rewrite (rep_n cfg _ _ H). set (n := length rows).
  apply Msat_bind, Msat_lift. rewrite (rep_tail_get cfg dg rows _ H) by (unfold n; lia). simpl.
  rewrite offs_all by (unfold n; lia). set (m := length (concat rows)).
  set (T := transpose_row rows).
  assert (length (outf T n) = m) as Htot by (eapply transpose_total; eauto).
  assert (length (concat (transpose_rows rows)) = m) as Htot' by exact Htot.
  assert (length (T n) = 0) as HTn.
  { unfold T, transpose_row. unfold n. rewrite (tails_to_bound _ _ H). reflexivity. }
  assert (Forall (fun p : nat * nat => p.2 < n) (all_arcs rows)) as Halt by (eapply all_arcs_lt; eauto).
  apply Msat_bind. eapply Msat_mono; [apply Msat_empty_digraph|].
  intros [ec out] w1 Hini. pose proof Hini as (L1 & T1 & Hok & Hbad). simpl in *.
  destruct (decide (ec <> ER_OK)) as [Hec|Hec].
  { apply Msat_ret. destruct (Hbad Hec) as (Ho & Hwhy & Hc). split; [auto|]. split; [auto|]. simpl.
    split; [congruence|]. intros _. splits; auto. rewrite Htot'. tauto. }
  assert (ec = ER_OK) as -> by (destruct (decide (ec = ER_OK)); tauto).
  destruct (Hok eq_refl) as (Ho & Herr & Hai & Hn1 & Hm1 & (tb & Et) & Hh).
  assert (forall ot oh tc hb, ot = Some (Arr tb tc) -> tail_upto tb n T n ot ->
    out_rep hb m oh (outf T n) -> (m = 0 <-> oh = None) -> arr_blk oh = arr_blk (dg_head out) ->
    new_post cfg (transpose_rows rows) m w (ER_OK, DG (dg_n out) (dg_max out) oh ot) w1) as Hfin.
  { intros ot oh tc hb -> Htail Hout Hz Hblk. split; [auto|]. split; [auto|]. simpl. split; [|congruence]. intros _.
    destruct (dg_rep_assemble cfg n T tb hb m oh _ Htail Hout Hz) as [Hrep Hbl]; auto.
    { intros v Hv. apply Forall_forall. intros x Hx. unfold T, transpose_row in Hx.
      rewrite elem_of_reverse in Hx. unfold tails_to in Hx. apply elem_of_list_fmap in Hx as ([x' y] & -> & Hp).
      apply elem_of_list_filter in Hp as [_ Hp]. apply elem_of_all_arcs in Hp as [? _]. auto. }
    rewrite Hn1, Hm1. splits; auto.
    unfold dg_blocks in *. simpl. rewrite Hblk. rewrite Et in Ho. exact Ho. }
  apply Msat_bind, Msat_lift. rewrite (is_empty_rep cfg _ _ H). simpl.
  case_bool_decide as He.
  { apply Msat_ret. assert (m = 0) as Hm0 by (unfold m; by rewrite He).
    rewrite decide_True in Hh by auto.
    destruct out as [on om oh ot]. simpl in *. subst ot oh.
    eapply (Hfin _ None _ []); [reflexivity| | |by split|reflexivity].
    - eexists. split; [reflexivity|]. rewrite replicate_length. split; [lia|]. intros k Hk.
      rewrite lookup_replicate_2 by lia. f_equal. f_equal.
      pose proof (outf_mono T k n ltac:(lia)). rewrite outf_offs by lia. lia.
    - split; [reflexivity|]. split; auto. apply nil_length_inv. lia. }
  assert (m <> 0) as Hm0. { unfold m. intros E. apply He. by apply nil_length_inv. }
  rewrite decide_False in Hh by auto. destruct Hh as [hb Eh].
  apply Msat_bind, Msat_lift.
  (* counting *)
  unfold m at 1. rewrite (for_all_arcs_fold cfg dg rows (dg_tail out) (fun x ot =>
     let! c := aget ot x in aset ot x (wrapN (ai_max cfg) (c + 1))) H).
  rewrite <- all_arcs_heads, foldR_fmap. rewrite Et.
  apply Rsat_bind. eapply Rsat_mono.
  { apply (foldR_sat B (fun pre (ot : option (arr nat)) => exists tc, ot = Some (Arr tb tc) /\
      length tc = S n /\ forall x, x <= n -> tc !! x = Some (Some (length (tails_to pre x))))).
    - eexists. split; [reflexivity|]. rewrite replicate_length. split; [lia|]. intros x Hx.
      rewrite lookup_replicate_2 by lia. reflexivity.
    - intros pre [v y] post ot Eq (tc & -> & Hl & Hc). simpl.
      assert (y < n) as Hy. { rewrite Eq in Halt. apply Forall_app in Halt as [_ Halt]. by apply Forall_cons in Halt as [? _]. }
      apply Rsat_bind. eapply Rsat_cget; [apply Hc; lia|]. simpl.
      rewrite cset_ok by lia. simpl. eexists. split; [reflexivity|]. split; [by rewrite insert_length|].
      assert (length (tails_to pre y) + 1 <= m) as Hle.
      { assert (length (tails_to (pre ++ [(v, y)]) y) <= length (all_arcs rows)).
        { rewrite Eq. replace (pre ++ (v, y) :: post) with ((pre ++ [(v, y)]) ++ post) by (by rewrite <- app_assoc).
          unfold tails_to. rewrite fmap_length. rewrite (app_length (pre ++ _)).
          pose proof (filter_length (fun p => p.2 = y) (pre ++ [(v, y)])). lia. }
        rewrite tails_to_snoc, decide_True, app_length in H0 by auto. simpl in H0.
        unfold m. rewrite <- all_arcs_heads, fmap_length. lia. }
      rewrite too_many_arcs_wrap by (eapply too_many_arcs_mono; [exact Hle|auto]).
      intros x Hx. rewrite tails_to_snoc, app_length.
      destruct (decide (y = x)) as [->|Hne].
      + rewrite list_lookup_insert by lia. simpl. auto.
      + rewrite list_lookup_insert_ne by auto. rewrite Hc by auto. simpl. f_equal. f_equal. lia. }
  intros ot1 (tc1 & -> & Hl1 & Hc1).
  (* prefix sums *)
  apply Rsat_bind. eapply (forR_sat0 B (fun v (ot : option (arr nat)) => exists tc, ot = Some (Arr tb tc) /\
      length tc = S n /\
      (forall x, x <= v -> tc !! x = Some (Some (length (outf T (S x))))) /\
      (forall x, v < x -> x <= n -> tc !! x = Some (Some (length (T x)))))).
  { exists tc1. splits; auto.
    - intros x Hx. replace x with 0 by lia. rewrite Hc1 by lia. rewrite outf_S. simpl.
      unfold T, transpose_row. by rewrite reverse_length.
    - intros x _ Hx. rewrite Hc1 by lia. unfold T, transpose_row. by rewrite reverse_length. }
  { intros v ot Hv (tc & -> & Hl & Ha & Hb). simpl.
    apply Rsat_bind. eapply Rsat_cget; [apply Ha; lia|].
    apply Rsat_bind. eapply Rsat_cget; [apply Hb; lia|].
    rewrite cset_ok by lia. simpl. eexists. split; [reflexivity|]. split; [by rewrite insert_length|].
    rewrite Nat.add_1_r.
    assert (length (T (S v)) + length (outf T (S v)) = length (outf T (S (S v)))) as E.
    { rewrite (outf_S T (S v)), app_length. lia. }
    assert (length (outf T (S n)) = m) as Htot2. { rewrite outf_S, app_length. lia. }
    rewrite too_many_arcs_wrap.
    2: { eapply too_many_arcs_mono; [|exact Hai]. rewrite E. etransitivity; [apply (outf_mono T _ (S n))|]; lia. }
    split.
    - intros x Hx. destruct (decide (x = S v)) as [->|].
      + rewrite list_lookup_insert by lia. by rewrite E.
      + rewrite list_lookup_insert_ne by lia. apply Ha. lia.
    - intros x Hx Hxn. rewrite list_lookup_insert_ne by lia. apply Hb; lia. }
  intros ot2 (tc2 & -> & Hl2 & Hc2 & _).
  (* writing *)
  rewrite (all_arcs_fold dg rows _ (fun v x '(ot, oh) =>
     let! c := aget ot x in if decide (c = 0) then Bad Arith else
     let! ot := aset ot x (c - 1) in let! oh := aset oh (c - 1) v in Ok (ot, oh)) H).
  eapply Rsat_mono.
  { apply (foldR_sat B (fun pre (s : option (arr nat) * option (arr nat)) => let '(ot, oh) := s in
      exists tc hc, ot = Some (Arr tb tc) /\ oh = Some (Arr hb hc) /\ length tc = S n /\ length hc = m /\
      (forall x, x <= n -> tc !! x = Some (Some (length (outf T (S x)) - length (tails_to pre x)))) /\
      (forall x i v, x < n -> tails_to pre x !! i = Some v ->
         hc !! (length (outf T (S x)) - 1 - i) = Some (Some v)))).
    - eexists _, _. splits; [reflexivity|exact Eh|auto|apply replicate_length| |].
      + intros x Hx. rewrite Hc2 by auto. simpl. by rewrite Nat.sub_0_r.
      + intros x i v Hx Hi. discriminate.
    - intros pre [v y] post [ot oh] Eq (tc & hc & -> & -> & Htl & Hhl & Htc & Hhc). simpl.
      assert (y < n) as Hy. { rewrite Eq in Halt. apply Forall_app in Halt as [_ Halt']. by apply Forall_cons in Halt' as [? _]. }
      assert (forall x, length (tails_to (pre ++ [(v, y)]) x) <= length (T x)) as Hle.
      { intros x. unfold T, transpose_row. rewrite reverse_length, Eq.
        replace (pre ++ (v, y) :: post) with ((pre ++ [(v, y)]) ++ post) by (by rewrite <- app_assoc).
        rewrite (tails_to_app (pre ++ _)), (app_length (tails_to _ _)). lia. }
      pose proof (Hle y) as Hley. rewrite tails_to_snoc, decide_True, app_length in Hley by auto. simpl in Hley.
      assert (forall x, length (outf T (S x)) = length (outf T x) + length (T x)) as HS.
      { intros x. by rewrite outf_S, app_length. }
      pose proof (HS y) as HSy.
      apply Rsat_bind. eapply Rsat_cget; [apply Htc; lia|].
      rewrite decide_False by lia. rewrite cset_ok by lia. simpl.
      pose proof (outf_mono T (S y) n ltac:(lia)) as Hmono.
      rewrite cset_ok by lia. simpl.
      eexists _, _. splits; [reflexivity|reflexivity|by rewrite insert_length|by rewrite insert_length| |].
      + intros x Hx. rewrite tails_to_snoc, app_length. destruct (decide (y = x)) as [->|Hne].
        * rewrite list_lookup_insert by lia. simpl. f_equal. f_equal. lia.
        * rewrite list_lookup_insert_ne by auto. rewrite Htc by auto. simpl. f_equal. f_equal. lia.
      + intros x i u Hx Hi. pose proof (lookup_lt_Some _ _ _ Hi) as Hil. pose proof (Hle x) as Hlex.
        rewrite tails_to_snoc in Hi.
        destruct (decide (y = x)) as [->|Hne].
        * apply lookup_app_Some in Hi as [Hi|[Hge Hi]].
          -- pose proof (lookup_lt_Some _ _ _ Hi). rewrite list_lookup_insert_ne by lia. by apply Hhc.
          -- destruct (i - length (tails_to pre x)) eqn:Ei; [|discriminate]. injection Hi as ->.
             replace (length (outf T (S x)) - 1 - i) with (length (outf T (S x)) - length (tails_to pre x) - 1) by lia.
             rewrite list_lookup_insert by lia. reflexivity.
        * rewrite app_nil_r in Hi. rewrite list_lookup_insert_ne; [by apply Hhc|].
          pose proof (HS x).
          destruct (decide (x < y)).
          -- pose proof (outf_mono T (S x) y ltac:(lia)). lia.
          -- pose proof (outf_mono T (S y) x ltac:(lia)). lia. }
  intros [ot3 oh3] (tc & hc & -> & -> & Htl & Hhl & Htc & Hhc). apply Msat_ret.
  assert (forall x, length (tails_to (all_arcs rows) x) = length (T x)) as HlT.
  { intros x. unfold T, transpose_row. by rewrite reverse_length. }
  assert (forall x, length (outf T (S x)) = length (outf T x) + length (T x)) as HS.
  { intros x. by rewrite outf_S, app_length. }
  eapply (Hfin _ _ _ [hb]); [reflexivity| | | |by rewrite Eh].
  - eexists. split; [reflexivity|]. split; auto. intros k Hk. rewrite Htc by auto. f_equal. f_equal.
    rewrite outf_offs by lia. rewrite HlT, HS. lia.
  - split; [reflexivity|]. simpl. split; auto.
    change (outf T n) with (concat (transpose_rows rows)). apply filled_rows; [|lia].
    intros v r j x Hv Hj. unfold transpose_rows in Hv. apply list_lookup_fmap_inv in Hv as (v' & -> & Hv).
    apply lookup_seq in Hv as [-> Hv]. fold n in Hv. simpl in *.
    pose proof (lookup_lt_Some _ _ _ Hj) as Hjl. fold T in Hj, Hjl.
    unfold transpose_rows. fold n. fold T. rewrite outf_offs by lia.
    assert (tails_to (all_arcs rows) v !! (length (T v) - 1 - j) = Some x) as Hx.
    { unfold T, transpose_row in Hj. rewrite reverse_lookup in Hj by (rewrite HlT; lia).
      rewrite HlT in Hj. rewrite <- Hj. f_equal. lia. }
    apply Hhc in Hx; [|lia]. rewrite <- Hx. f_equal. rewrite HS. lia.
  - split; [lia|discriminate].
Qed.

(** Membership in the transpose. *)
Lemma elem_of_transpose rows u v : u < length rows ->
  v ∈ row (transpose_rows rows) u <-> v < length rows /\ u ∈ row rows v.
Proof.
  intros Hu. unfold transpose_rows. rewrite row_seq by auto. unfold transpose_row.
  rewrite elem_of_reverse. unfold tails_to. rewrite elem_of_list_fmap. split.
  - intros ([v' x] & -> & Hp). apply elem_of_list_filter in Hp as [Hp Hin]. simpl in *. subst x.
    by apply elem_of_all_arcs.
  - intros Hp. exists (v, u). split; auto. apply elem_of_list_filter. split; auto. by apply elem_of_all_arcs.
Qed.

Lemma transpose_rows_length rows : length (transpose_rows rows) = length rows.
Proof. unfold transpose_rows. by rewrite fmap_length, seq_length. Qed.

End Diff.
