(** Functional correctness of src/digraph_operations.c. *)

From stdpp Require Import prelude list.
From Coq Require Import NArith ZArith.
From Verif Require Import Base World Mem Digraph DigraphRep.

Section Ops.
Context (cfg : config).
Notation dg_rep := (dg_rep cfg).

(** Outcome of an operation that turns the owned digraph [dg] into one
    representing [rows]. *)
Definition upd_post (dg : digraph) (rows : list (list nat)) (w : world)
    (r : ecode * digraph) (w' : world) : Prop :=
  wle w w' /\ w_tick w' = w_tick w /\
  (forall x, cnt x (w_live w') + cnt x (dg_blocks dg) = cnt x (w_live w) + cnt x (dg_blocks r.2)) /\
  (r.1 = ER_OK -> dg_rep r.2 rows /\ dg_max r.2 = length (concat rows) /\ w_err w' = w_err w) /\
  (r.1 <> ER_OK -> r.1 = ER_NO_MEMORY /\ ~ no_fail w /\ e_code (w_err w') = r.1).

Lemma filled_take {A} (c : list (option A)) xs n : filled c xs -> length xs <= n -> filled (take n c) xs.
Proof.
  intros [r ->] H. rewrite take_app_ge by (rewrite fmap_length; lia). by eexists.
Qed.

Lemma filled_app_r {A} (c d : list (option A)) xs : filled c xs -> filled (c ++ d) xs.
Proof. intros [r ->]. exists (r ++ d). by rewrite app_assoc. Qed.

Lemma resize_length {A} n (c : list (option A)) : length (resize n c) = n.
Proof. unfold resize, fresh. rewrite app_length, take_length, replicate_length. lia. Qed.

Lemma Msat_change_arc_storage B dg rows w :
  dg_rep dg rows ->
  (forall x, cnt x (dg_blocks dg) <= cnt x (w_live w)) ->
  Msat B (change_arc_storage cfg dg (length (concat rows))) w (upd_post dg rows w).
Proof.
  intros H Hb. unfold change_arc_storage.
  pose proof (rep_max _ _ _ H) as Hmax.
  rewrite (too_many_arcs_mono cfg _ _ Hmax (rep_ai _ _ _ H)).
  destruct (decide (dg_max dg = length (concat rows))) as [He|He].
  { apply Msat_ret. split; [auto|]. split; [auto|]. simpl. split; [auto|]. split; [auto|congruence]. }
  destruct (decide (length (concat rows) = 0)) as [Hz|Hz].
  - apply Msat_bind. apply Msat_free_arr.
    { intros x. specialize (Hb x). unfold dg_blocks in Hb. rewrite cnt_app in Hb. lia. }
    intros w1 L1 C1 E1 T1. apply Msat_ret. split; [auto|]. split; [auto|]. simpl.
    split. { intros x. specialize (C1 x). unfold dg_blocks. simpl. rewrite !cnt_app. simpl. lia. }
    split; [|congruence]. intros _. split; [|split; [simpl; lia|auto]].
    destruct H as [Hn Ht Hh Hl Ha]. constructor; simpl; auto.
    + split; [auto|]. by apply nil_length_inv.
    + eapply too_many_arcs_mono; [|exact Ha]. lia.
  - pose proof (rep_head _ _ _ H) as Hh. destruct (dg_head dg) as [a|] eqn:Eh; [|exfalso; lia].
    destruct Hh as (Hm & Hp & Hf).
    apply Msat_bind. unfold realloc_arr. apply Msat_bind.
    assert (1 <= cnt (a_blk a) (w_live w)) as Hlive.
    { specialize (Hb (a_blk a)). unfold dg_blocks in Hb. rewrite Eh in Hb. simpl in Hb.
      rewrite decide_True in Hb by auto. lia. }
    unfold Msat, realloc. rewrite decide_True by (by apply cnt_elem).
    destruct (w_fail w (w_next w)) eqn:Ef; simpl.
    + split; [split; simpl; auto; lia|]. split; [auto|]. split; [auto|]. split; [discriminate|].
      intros _. split; [auto|]. split; [|auto]. intros Hnf. rewrite Hnf in Ef; [discriminate|lia].
    + split; [split; simpl; auto; lia|]. split; [auto|]. simpl. split.
      { intros x. unfold dg_blocks. rewrite Eh. simpl. rewrite cnt_remove.
        destruct (decide (a_blk a = x)); subst; lia. }
      split; [|congruence]. intros _. split; [|auto].
      destruct H as [Hn Ht Hh' Hl Ha]. constructor; simpl; auto.
      * rewrite resize_length. split; [auto|]. split; [lia|].
        unfold resize. apply filled_app_r. apply filled_take; [auto|lia].
      * eapply too_many_arcs_mono; [|exact Ha]. lia.
Qed.

(** ** Deletion of self-loops *)

Definition row_no_loop (v : nat) (r : list nat) : list nat := filter (fun x => x <> v) r.
Definition rows_no_loops (rows : list (list nat)) : list (list nat) := imap row_no_loop rows.

(** State of an in-place compaction before row [v]: [new] are the rows already
    rewritten, head cells from the old offset of [v] on are untouched. *)
Definition comp_inv (rows : list (list nat)) (h0 : list (option nat)) (hb tb : nat)
    (new : list (list nat)) (v : nat)
    (head tail : option (arr nat)) (hw : nat) : Prop :=
  length new = v /\
  hw = length (concat new) /\ hw <= offs rows v /\
  (exists hc, head = Some (Arr hb hc) /\ length hc = length h0 /\ filled hc (concat new) /\
     forall j, offs rows v <= j -> hc !! j = h0 !! j) /\
  (exists tc, tail = Some (Arr tb tc) /\ length tc = S (length rows) /\
     (forall k, k < v -> tc !! k = Some (Some (offs new k))) /\
     (forall k, v <= k <= length rows -> tc !! k = Some (Some (offs rows k)))).

Lemma insert_lookup_ne' {A} (l : list A) i j x : i <> j -> <[i := x]> l !! j = l !! j.
Proof. apply list_lookup_insert_ne. Qed.

Lemma filled_snoc' {A} (c : list (option A)) xs x n :
  filled c xs -> n = length xs -> n < length c -> filled (<[n := Some x]> c) (xs ++ [x]).
Proof. intros ? -> ?. by apply filled_snoc. Qed.

Lemma comp_finish rows h0 hb tb new head tail hw :
  comp_inv rows h0 hb tb new (length rows) head tail hw ->
  Forall (Forall (fun x => x < length rows)) new ->
  0 < length h0 -> too_many_arcs cfg (length h0) = false ->
  exists tail', aset tail (length rows) hw = Ok tail' /\
    dg_rep (DG (length rows) (length h0) head tail') new /\ hw = length (concat new) /\
    arr_blk head = [hb] /\ arr_blk tail' = [tb].
Proof.
  intros (Hl & Hhw & Hle & (hc & -> & Hhl & Hf & _) & (tc & -> & Htl & Ht1 & Ht2)) Hlt Hpos Hai.
  simpl. rewrite cset_ok by lia. simpl. eexists. split; [reflexivity|].
  split; [|split; [auto|split; auto]].
  constructor; simpl; auto.
  - eexists _, _. split; [reflexivity|]. split; [rewrite insert_length; lia|].
    intros k Hk. destruct (decide (k = length rows)) as [->|Hne].
    + rewrite list_lookup_insert by lia. by rewrite offs_all, Hhw by lia.
    + rewrite list_lookup_insert_ne by lia. apply Ht1. lia.
  - rewrite Hl. auto.
Qed.

Lemma Forall_row_no_loop (P : nat -> Prop) rows : Forall (Forall P) rows ->
  Forall (Forall P) (rows_no_loops rows).
Proof.
  intros H. apply Forall_lookup. intros i r Hr. unfold rows_no_loops in Hr.
  rewrite list_lookup_imap in Hr. destruct (rows !! i) as [r0|] eqn:E; [|discriminate].
  injection Hr as <-. eapply Forall_lookup_1 in H; [|exact E]. simpl in H.
  apply Forall_forall. intros x Hx. apply elem_of_list_filter in Hx as [_ Hx].
  eapply Forall_forall in H; eauto.
Qed.

Lemma rows_no_loops_length rows : length (rows_no_loops rows) = length rows.
Proof. apply imap_length. Qed.

Lemma rows_no_loops_nil rows : concat rows = [] -> rows_no_loops rows = rows.
Proof.
  intros H. apply list_eq. intros i. unfold rows_no_loops. rewrite list_lookup_imap.
  destruct (rows !! i) as [r|] eqn:E; [|reflexivity]. simpl. f_equal.
  assert (r = []) as ->; [|reflexivity].
  destruct r as [|x r]; auto. exfalso.
  assert (x ∈ concat rows) as Hx.
  { apply elem_of_list_lookup. exists (offs rows i + 0). eapply concat_lookup; eauto. }
  rewrite H in Hx. by apply elem_of_nil in Hx.
Qed.

Lemma row_no_loop_snoc v l x :
  row_no_loop v (l ++ [x]) = row_no_loop v l ++ (if decide (x <> v) then [x] else []).
Proof.
  unfold row_no_loop. rewrite filter_app. f_equal.
Qed.

Lemma take_S_imap rows v r :
  rows !! v = Some r -> take (S v) (rows_no_loops rows) = take v (rows_no_loops rows) ++ [row_no_loop v r].
Proof.
  intros H. apply take_S_r. unfold rows_no_loops. rewrite list_lookup_imap, H. reflexivity.
Qed.

Lemma Msat_delete_loops B dg rows w :
  dg_rep dg rows ->
  (forall x, cnt x (dg_blocks dg) <= cnt x (w_live w)) ->
  Msat B (delete_loops cfg dg) w (fun r w' =>
    wle w w' /\ w_tick w' = w_tick w /\
    (forall x, cnt x (w_live w') + cnt x (dg_blocks dg) = cnt x (w_live w) + cnt x (dg_blocks r.2)) /\
    (r.1 = ER_OK -> dg_rep r.2 (rows_no_loops rows) /\
       (dg_max r.2 = length (concat (rows_no_loops rows)) \/ concat rows = []) /\ w_err w' = w_err w) /\
    (r.1 <> ER_OK -> r.1 = ER_NO_MEMORY /\ ~ no_fail w /\ e_code (w_err w') = r.1)).
Proof.
  intros H Hb. unfold delete_loops.
  apply Msat_bind, Msat_lift. rewrite (is_empty_rep cfg _ _ H). simpl.
  case_bool_decide as He.
  { apply Msat_ret. simpl. splits; auto; try congruence. intros _. rewrite rows_no_loops_nil by auto. auto. }
  pose proof H as [Hn (tb & tc & Et & Htr) Hh Hl Ha].
  destruct (dg_head dg) as [[hb h0]|] eqn:Eh; [|exfalso; apply He, Hh].
  simpl in Hh. destruct Hh as (Hm & Hp & Hf).
  apply Msat_bind, Msat_lift.
  set (Inv := fun v (s : option (arr nat) * option (arr nat) * nat) => let '(head, tail, hw) := s in
     comp_inv rows h0 hb tb (take v (rows_no_loops rows)) v head tail hw).
  eapply Rsat_bind_mono.
  { eapply (forR_sat0 B Inv _ _ _ (fun s => Inv (length rows) s)).
    - unfold Inv. split; [by rewrite take_0|]. split; [by rewrite take_0|]. split; [lia|]. split.
      + exists h0. rewrite take_0. repeat split; auto. apply filled_nil.
      + exists tc. destruct Htr as [Ht1 Ht2]. repeat split; auto; intros; [lia|apply Ht2; lia].
    - intros v [[head tail] hw] Hv HI. rewrite Hn in Hv.
      destruct (lookup_lt_is_Some_2 rows v Hv) as [r Hr].
      unfold Inv in HI. destruct HI as (Hnl & Hhw & Hle & (hc & -> & Hhl & Hfc & Hun) & (tc' & -> & Htl & Ht1 & Ht2)).
      apply Rsat_bind. eapply Rsat_cget. { simpl. apply Ht2. lia. }
      apply Rsat_bind. eapply Rsat_cget. { simpl. apply Ht2. lia. }
      apply Rsat_bind. simpl. rewrite cset_ok by lia. simpl.
      rewrite Nat.add_1_r, (offs_S _ _ _ Hr). apply Rsat_bind.
      unfold for_ptr. rewrite decide_False by lia.
      replace (offs rows v + length r - offs rows v) with (length r) by lia.
      eapply Rsat_mono.
      { eapply (forR_sat B (fun j (s : option (arr nat) * nat) => let '(head, hw) := s in
          let out := concat (take v (rows_no_loops rows)) ++ row_no_loop v (take (j - offs rows v) r) in
          hw = length out /\ hw <= j /\
          exists hc, head = Some (Arr hb hc) /\ length hc = length h0 /\ filled hc out /\
            forall i, j <= i -> hc !! i = h0 !! i)).
        - rewrite Nat.sub_diag, take_0. simpl. rewrite app_nil_r. split; [auto|]. split; [lia|].
          exists hc. auto.
        - intros j [head hw'] Hj (Ehw & Hlej & hc' & -> & Hhl' & Hf' & Hun').
          assert (j - offs rows v < length r) as Hjr by lia.
          destruct (lookup_lt_is_Some_2 r _ Hjr) as [x Hx].
          assert (hc' !! j = Some (Some x)) as Hcx.
          { rewrite Hun' by lia. eapply filled_lookup; [exact Hf|].
            replace j with (offs rows v + (j - offs rows v)) by lia. eapply concat_lookup; eauto. }
          apply Rsat_bind. simpl. eapply Rsat_cget; [exact Hcx|].
          replace (S j - offs rows v) with (S (j - offs rows v)) by lia.
          rewrite (take_S_r _ _ _ Hx), row_no_loop_snoc.
          assert (j < length h0) as Hjh. { rewrite <- Hhl'. eapply lookup_lt_Some; eauto. }
          case_decide as Hxv.
          + apply Rsat_bind. rewrite cset_ok by lia. simpl.
            rewrite too_many_arcs_wrap by (eapply too_many_arcs_mono; [|exact Ha]; lia).
            rewrite app_assoc, app_length. simpl.
            split; [lia|]. split; [lia|]. eexists. split; [reflexivity|].
            split; [by rewrite insert_length|]. split.
            * apply filled_snoc'; auto. lia.
            * intros i Hi. rewrite list_lookup_insert_ne by lia. apply Hun'. lia.
          + simpl. rewrite app_nil_r.
            split; [auto|]. split; [lia|]. exists hc'. repeat split; auto.
            intros i Hi. apply Hun'. lia. }
      intros [head hw'] (Ehw & Hlej & hc' & -> & Hhl' & Hf' & Hun').
      replace (offs rows v + length r - offs rows v) with (length r) in * by lia.
      rewrite firstn_all in Ehw, Hf'.
      simpl. unfold Inv, comp_inv. rewrite (take_S_imap _ _ _ Hr).
      rewrite concat_app. simpl. rewrite app_nil_r.
      split. { rewrite app_length, Hnl. simpl. lia. }
      split; [auto|]. split; [by rewrite (offs_S _ _ _ Hr)|]. split.
      + exists hc'. repeat split; auto. intros j Hj. apply Hun'. by rewrite <- (offs_S _ _ _ Hr).
      + eexists. split; [reflexivity|]. split; [by rewrite insert_length|]. split.
        * intros k Hk. destruct (decide (k = v)) as [->|Hne].
          -- rewrite list_lookup_insert by lia. rewrite Hhw. f_equal. f_equal.
             rewrite offs_app_l by lia. by rewrite offs_all by lia.
          -- rewrite list_lookup_insert_ne by lia. rewrite offs_app_l by lia. apply Ht1. lia.
        * intros k Hk. rewrite list_lookup_insert_ne by lia. apply Ht2. lia.
    - intros s HI. rewrite Hn in HI. exact HI. }
  intros [[head tail] hw] HI. unfold Inv in HI.
  rewrite take_ge in HI by (rewrite rows_no_loops_length; lia).
  destruct (comp_finish _ _ _ _ _ _ _ _ HI) as (tail' & Eset & Hrep & Ehw & Bh & Bt).
  { by apply Forall_row_no_loop. } { lia. } { congruence. }
  rewrite Hn, Eset. simpl. rewrite Hm.
  rewrite Ehw. eapply Msat_mono.
  - apply Msat_change_arc_storage; [exact Hrep|].
    intros x. specialize (Hb x). unfold dg_blocks in *. simpl. rewrite Bh, Bt.
    rewrite Eh, Et in Hb. simpl in *. lia.
  - intros [ec dg'] w' (L & T & C & O & F). split; [auto|]. split; [auto|]. split.
    + intros x. specialize (C x). unfold dg_blocks in *. rewrite Eh, Et. simpl in *.
      rewrite Bh, Bt in C. simpl in *. lia.
    + split; [|auto]. intros E. destruct (O E) as (? & ? & ?). auto.
Qed.

End Ops.
