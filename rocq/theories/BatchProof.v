(** Batch clustering (src/nng_batch_clustering.c) computes what BatchSpec says. *)

From stdpp Require Import prelude list sorting.
From Coq Require Import NArith ZArith.
From Verif Require Import Base World Mem Digraph DigraphRep DigraphOps Float Spi Options Arrays GraphSpec AssignSpec BatchSpec Nng NngGraph NngSize NngAssign NngStage SortIdx TypeCount Batch.

(** ** Cells *)

Section Cells.
Context (cfg : config) (n : nat).
Notation enc := (enc cfg).

Definition bits (A : list nat) : list bool := (fun x => bool_decide (x ∈ A)) <$> seq 0 n.

Lemma aget_bits b A x : x < n -> aget (farr b (bits A)) x = Ok (bool_decide (x ∈ A)).
Proof. intros H. apply aget_farr. unfold bits. by rewrite list_lookup_fmap, lookup_seq_lt. Qed.

Lemma bits_ext A A' : (forall x, x ∈ A <-> x ∈ A') -> bits A = bits A'.
Proof. intros H. unfold bits. apply list_fmap_ext. intros i x _. apply bool_decide_ext, H. Qed.

Lemma aset_bits b A x : x < n -> aset (farr b (bits A)) x true = Ok (farr b (bits (x :: A))).
Proof.
  intros H. rewrite aset_farr by (unfold bits; by rewrite fmap_length, seq_length). do 4 f_equal. unfold bits. apply list_eq. intros i.
  destruct (decide (i = x)) as [->|Hne].
  - rewrite list_lookup_insert by (by rewrite fmap_length, seq_length). rewrite list_lookup_fmap, lookup_seq_lt by done. simpl. f_equal.
    symmetry. apply bool_decide_eq_true. left.
  - rewrite list_lookup_insert_ne by done. rewrite !list_lookup_fmap. destruct (seq 0 n !! i) as [y|] eqn:E; [|done]. apply lookup_seq in E as [-> _].
    simpl. f_equal. apply bool_decide_ext. rewrite elem_of_cons. naive_solver.
Qed.

Lemma bits_nil : bits [] = replicate n false.
Proof.
  unfold bits. apply list_eq. intros i. rewrite list_lookup_fmap. destruct (decide (i < n)).
  - rewrite lookup_seq_lt, lookup_replicate_2 by done. simpl. f_equal. 
  - rewrite !lookup_ge_None_2; [done|rewrite replicate_length; lia|rewrite seq_length; lia].
Qed.

(** The labels of points before [curr] and of assigned points are stored. *)
Definition lab_cells (curr : nat) (A : list nat) (L : labels) (c : list (option Z)) : Prop :=
  length c = n /\ forall x, x < n -> x < curr \/ x ∈ A -> c !! x = Some (Some (enc (lab L x))).

Lemma lab_cells_insert curr A A' L c x o : lab_cells curr A L c -> length L = n -> x < n -> (forall y, y ∈ A' -> y = x \/ y ∈ A) ->
  lab_cells curr A' (<[x := o]> L) (<[x := Some (enc o)]> c).
Proof.
  intros [Hl H] HL Hx HA. split; [by rewrite insert_length|]. intros y Hy Hc. rewrite lab_insert by lia. destruct (decide (y = x)) as [->|Hne].
  - by rewrite list_lookup_insert by lia.
  - rewrite list_lookup_insert_ne by done. apply H; [done|]. destruct Hc as [?|Hc]; [auto|]. destruct (HA y Hc); naive_solver.
Qed.

Lemma lab_cells_ext curr A A' L c : lab_cells curr A L c -> (forall y, y ∈ A' -> y ∈ A) -> lab_cells curr A' L c.
Proof. intros [Hl H] HA. split; [done|]. intros y Hy Hc. apply H; naive_solver. Qed.

Lemma lab_cells_all A L c : lab_cells n A L c -> length L = n -> c = Some <$> (enc <$> L).
Proof.
  intros [Hl H] HL. apply list_eq. intros x. rewrite !list_lookup_fmap. destruct (decide (x < n)).
  - rewrite H by auto. rewrite lab_lookup by lia. done.
  - rewrite !lookup_ge_None_2 by lia. done.
Qed.

Lemma give_nil i L : give [] i L = L.
Proof.
  unfold give. apply list_eq. intros x. rewrite list_lookup_imap. by destruct (L !! x).
Qed.

Lemma give_snoc ms x i L : x < length L -> give (ms ++ [x]) i L = <[x := Some i]> (give ms i L).
Proof.
  intros Hx. apply labels_ext; [by rewrite insert_length, !give_length|]. rewrite give_length. intros y Hy.
  rewrite lab_insert by (by rewrite give_length). rewrite !lab_give by done.
  destruct (decide (y = x)) as [->|Hne].
  - rewrite decide_True by set_solver. done.
  - destruct (decide (y ∈ ms)); [rewrite decide_True by set_solver; done|]. rewrite decide_False by set_solver. done.
Qed.

(** ** Collection *)

(** [prim] holds for each point whether it may be a seed. *)
Definition prim_bits (prim : option (arr bool)) (Q : list nat) : Prop :=
  match prim with
  | None => forall x, x < n -> x ∈ Q
  | Some _ => exists pb, prim = farr pb (bits Q)
  end.

Lemma collect_batch_sat B prim Q ab A batch_size curr lb c L bb bc :
  prim_bits prim Q -> curr <= n -> lab_cells curr A L c -> (forall x, curr <= x -> x ∉ A -> lab L x = None) ->
  length bc = batch_size -> length L = n ->
  Rsat B (collect_batch cfg n prim (farr ab (bits A)) batch_size curr (Some (Arr lb c)) (Some (Arr bb bc)))
    (fun '(curr', nb, lab', bi') => exists c' bc' bl,
       curr <= curr' <= n /\ lab' = Some (Arr lb c') /\ lab_cells curr' A L c' /\ bi' = Some (Arr bb bc') /\ length bc' = batch_size /\
       bl = filter (fun x => x ∉ A /\ x ∈ Q) (seq curr (curr' - curr)) /\ filled bc' bl /\ nb = length bl /\ nb <= batch_size /\
       (nb = batch_size \/ curr' = n) /\ (curr < n -> 0 < batch_size -> curr < curr')).
Proof.
  intros HQ Hcn Hc HL Hb HLl. unfold collect_batch. apply Rsat_bind.
  eapply Rsat_mono; [apply (loopR_sat B (fun i '(curr', nb, lab', bi') => curr' = i /\ exists c' bc' bl,
       lab' = Some (Arr lb c') /\ lab_cells curr' A L c' /\ bi' = Some (Arr bb bc') /\ length bc' = batch_size /\
       bl = filter (fun x => x ∉ A /\ x ∈ Q) (seq curr (curr' - curr)) /\ filled bc' bl /\ nb = length bl /\ nb <= batch_size)
     (fun '(curr', nb, lab', bi') => exists c' bc' bl,
       curr <= curr' <= n /\ lab' = Some (Arr lb c') /\ lab_cells curr' A L c' /\ bi' = Some (Arr bb bc') /\ length bc' = batch_size /\
       bl = filter (fun x => x ∉ A /\ x ∈ Q) (seq curr (curr' - curr)) /\ filled bc' bl /\ nb = length bl /\ nb <= batch_size /\
       nb = batch_size /\ (curr < n -> 0 < batch_size -> curr < curr')))|].
  - split; [done|]. exists c, bc, []. rewrite Nat.sub_diag. splits; auto. apply filled_nil. simpl. lia.
  - intros j [[[curr' nb] lab'] bi'] Hj (-> & c' & bc' & bl & -> & Hc' & -> & Hbc & Hbl & Hf & Hnb & Hle).
    destruct (decide (nb < batch_size)) as [Hlt|Hge].
    2:{ cbn [Rsat]. exists c', bc', bl. splits; auto; try lia. intros _ H0. destruct (decide (j = curr)) as [->|]; [|lia].
        rewrite Nat.sub_diag in Hbl. simpl in Hbl. subst bl. simpl in Hnb. lia. }
    assert (seq curr (j + 1 - curr) = seq curr (j - curr) ++ [j]) as Hseq.
    { replace (j + 1 - curr) with (S (j - curr)) by lia. rewrite seq_S. do 2 f_equal. lia. }
    rewrite aget_bits by lia. cbn [Rbind]. destruct (bool_decide (j ∈ A)) eqn:HA.
    + apply bool_decide_eq_true in HA. cbn [Rsat]. split; [lia|]. exists c', bc', bl. splits; auto.
      * destruct Hc' as [H1 H2]. split; [done|]. intros x Hx Hxj. apply H2; [done|]. destruct (decide (x = j)) as [->|]; [auto|]. destruct Hxj; [left; lia|auto].
      * rewrite Hseq, filter_app, <- Hbl. rewrite (filter_cons_False _ j) by tauto. by rewrite filter_nil, app_nil_r.
    + apply bool_decide_eq_false in HA. destruct Hc' as [H1 H2]. rewrite aset_cells by lia. cbn [Rbind].
      assert (lab_cells (j + 1) A L (<[j := Some (cl_na cfg)]> c')) as Hc1.
      { split; [by rewrite insert_length|]. intros x Hx Hxj. destruct (decide (x = j)) as [->|Hne].
        - rewrite list_lookup_insert by lia. rewrite HL by (lia || done). done.
        - rewrite list_lookup_insert_ne by done. apply H2; [done|]. destruct Hxj; [left; lia|auto]. }
      assert (match prim with None => Ok true | Some _ => aget prim j end = Ok (bool_decide (j ∈ Q))) as ->.
      { unfold prim_bits in HQ. destruct prim as [pa|].
        - destruct HQ as [pb ->]. apply aget_bits. lia.
        - f_equal. symmetry. apply bool_decide_eq_true. apply HQ. lia. }
      cbn [Rbind]. destruct (bool_decide (j ∈ Q)) eqn:HjQ.
      * apply bool_decide_eq_true in HjQ. rewrite aset_cells by lia. cbn [Rbind Rsat]. split; [lia|].
        eexists _, _, (bl ++ [j]). split; [done|]. split; [done|]. split; [done|]. split; [by rewrite insert_length|]. splits.
        -- rewrite Hseq, filter_app, <- Hbl. rewrite (filter_cons_True _ j) by tauto. by rewrite filter_nil.
        -- rewrite Hnb. apply filled_snoc; [done|lia].
        -- rewrite app_length. simpl. lia.
        -- lia.
      * apply bool_decide_eq_false in HjQ. cbn [Rsat]. split; [lia|]. eexists _, _, bl. splits; eauto.
        rewrite Hseq, filter_app, <- Hbl. rewrite (filter_cons_False _ j) by tauto. by rewrite filter_nil, app_nil_r.
  - intros [[[[curr' nb] lab'] bi']|[[[curr' nb] lab'] bi']].
    + intros (-> & c' & bc' & bl & H). cbn [Rsat]. exists c', bc', bl. naive_solver lia.
    + intros (c' & bc' & bl & H). cbn [Rsat]. exists c', bc', bl. naive_solver.
Qed.

(** ** One point *)

Lemma first_assigned_sat B ab A ob oc xs base size : (forall j x, xs !! j = Some x -> oc !! (base + j) = Some (Some x)) -> length xs = size ->
  Forall (fun x => x < n) xs ->
  Rsat B (first_assigned (farr ab (bits A)) (Some (Arr ob oc)) base size)
    (fun r => r = snd <$> list_find (fun x => x ∈ A) xs).
Proof.
  intros Hx Hs Hlt. unfold first_assigned. apply Rsat_bind.
  eapply Rsat_mono; [apply (loopR_sat B (fun i _ => list_find (fun x => x ∈ A) (take i xs) = None)
    (fun x => snd <$> list_find (fun x => x ∈ A) xs = Some x))|].
  - done.
  - intros j [] Hj HI. destruct (lookup_lt_is_Some_2 xs j) as [x Hxj]; [lia|]. rewrite (aget_cells _ _ _ x) by auto. cbn [Rbind].
    rewrite aget_bits by (by eapply Forall_lookup_1 in Hlt). cbn [Rbind].
    destruct (bool_decide (x ∈ A)) eqn:HA.
    + apply bool_decide_eq_true in HA. cbn [Rsat]. rewrite <- (take_drop j xs). rewrite list_find_app_r by done.
      rewrite (drop_S _ x) by done. cbn [list_find]. rewrite decide_True by done. done.
    + apply bool_decide_eq_false in HA. cbn [Rsat]. rewrite (take_S_r _ _ x) by done. rewrite list_find_app_r by done. cbn [list_find].
      rewrite decide_False by done. done.
  - intros [[]|x]; cbn [Rsat].
    + rewrite take_ge by lia. intros ->. done.
    + by intros ->.
Qed.

Lemma batch_point_sat B size ign bb bc ob oc ok cs (N : nat -> list nat -> Prop) i v c A L m ab lb lc curr :
  filled bc ok -> ok !! i = Some v -> cs !! i = Some c -> N v c ->
  filled oc (concat cs) -> Forall (fun c => length c = size) cs -> 0 < size -> v < n -> v < curr -> NoDup c -> Forall (fun x => x < n) c ->
  lab_cells curr A L lc -> length L = n -> (N.of_nat m <= cl_max cfg)%N ->
  Rsat B (batch_point cfg size ign (Some (Arr bb bc)) (Some (Arr ob oc)) i (farr ab (bits A), Some (Arr lb lc), m))
    (fun r => match r with
      | inl (assigned', lab', m') => exists A' L' lc', batch_step ign size N v (A, L, m) (A', L', m') /\
          assigned' = farr ab (bits A') /\ lab' = Some (Arr lb lc') /\ lab_cells curr A' L' lc' /\ length L' = n /\ (N.of_nat m' <= cl_max cfg)%N
      | inr lab' => N.of_nat m = cl_max cfg /\ lab' = Some (Arr lb lc) /\ v ∉ A /\ (forall x, x ∈ c -> x ∉ A)
      end).
Proof.
  intros Hbc Hi Hci HN Hoc Hsz Hk Hv Hvc Hnd Hlt Hlc HL Hm. unfold batch_point.
  rewrite (aget_cells _ _ _ v) by (by eapply filled_lookup). cbn [Rbind]. rewrite aget_bits by done. cbn [Rbind].
  destruct (bool_decide (v ∈ A)) eqn:HA.
  { apply bool_decide_eq_true in HA. cbn [Rsat]. exists A, L, lc. split; [by constructor|]. auto. }
  apply bool_decide_eq_false in HA.
  assert (length c = size) as Hlen by (by eapply Forall_lookup_1 in Hsz).
  assert (forall j x, c !! j = Some x -> oc !! (i * size + j) = Some (Some x)) as Hcells.
  { intros j x Hj. eapply filled_lookup; [exact Hoc|]. clear -Hsz Hci Hj. revert i Hci. induction Hsz as [|c0 cs H0 Hsz IH]; intros i Hci; [done|].
    simpl. destruct i as [|i]; simpl in Hci.
    - injection Hci as ->. simpl. rewrite lookup_app_l by (by eapply lookup_lt_Some). done.
    - rewrite lookup_app_r by lia. replace (S i * size + j - length c0) with (i * size + j) by lia. by apply IH. }
  apply Rsat_bind. eapply Rsat_mono; [by apply (first_assigned_sat B ab A ob oc c (i * size) size)|].
  intros f ->. destruct (list_find (fun x => x ∈ A) c) as [[j y]|] eqn:Hf; cbn [fmap option_fmap option_map snd].
  - pose proof Hf as Hf'. apply list_find_Some in Hf' as (Hj & HyA & _). assert (y < n) as Hy by (eapply Forall_lookup_1 in Hlt; eauto).
    assert (forall s', (A, if ign then L else <[v := lab L y]> L, m) = s' -> batch_step ign size N v (A, L, m) s') as Hstep.
    { intros s' <-. eapply bs_near; eauto. }
    destruct ign.
    + cbn [Rsat]. exists A, L, lc. split; [by apply Hstep|]. auto.
    + rewrite (aget_cells _ _ _ (enc (lab L y))) by (destruct Hlc as [_ H]; apply H; auto). cbn [Rbind].
      rewrite aset_cells by (destruct Hlc as [H _]; lia). cbn [Rbind Rsat]. eexists A, _, _. split; [by apply Hstep|]. splits; auto.
      * eapply lab_cells_insert; eauto.
      * by rewrite insert_length.
  - apply list_find_None in Hf. rewrite Forall_forall in Hf. destruct (decide (N.of_nat m = cl_max cfg)) as [Hmax|Hmax]; [cbn [Rsat]; auto|].
    apply Rsat_bind. eapply Rsat_mono; [apply (forR_sat0 B (fun j '(a', lab') => exists lc', a' = farr ab (bits (take j c ++ A)) /\
       lab' = Some (Arr lb lc') /\ lab_cells curr (take j c ++ A) (give (take j c) m L) lc')); [| |intros s Hs; exact Hs]|].
    + exists lc. simpl. rewrite give_nil. auto.
    + intros j [a' lab'] Hj (lc' & -> & -> & Hlc'). destruct (lookup_lt_is_Some_2 c j) as [x Hx]; [lia|].
      assert (x < n) as Hxn by (eapply Forall_lookup_1 in Hlt; eauto).
      rewrite (aget_cells _ _ _ x) by auto. cbn [Rbind]. unfold assign_to. rewrite aset_bits by done. cbn [Rbind].
      rewrite aset_cells by (destruct Hlc' as [H _]; lia). cbn [Rbind Rsat]. rewrite (take_S_r _ _ x) by done. eexists. split; [|split; [done|]].
      * do 3 f_equal. rewrite (bits_ext (x :: take j c ++ A) ((take j c ++ [x]) ++ A)); [done|]. set_solver.
      * rewrite give_snoc by lia. change (Z.of_nat m) with (enc (Some m)).
        eapply lab_cells_insert; [exact Hlc'|by rewrite give_length|done|]. set_solver.
    + intros [a' lab'] (lc' & -> & -> & Hlc'). rewrite aget_bits by done. cbn [Rbind].
      destruct (lookup_lt_is_Some_2 c (size - 1)) as [z Hz]; [lia|].
      assert (c = take (size - 1) c ++ [z]) as Ec.
      { rewrite <- (take_S_r _ _ z) by done. rewrite take_ge by lia. done. }
      assert (exists x, (if bool_decide (v ∈ take (size - 1) c ++ A) then aget (Some (Arr ob oc)) (i * size + (size - 1)) else Ok v) = Ok x /\
        members size v c = take (size - 1) c ++ [x] /\ x < n) as (x & Ex & Em & Hxn).
      { unfold members. destruct (bool_decide (v ∈ take (size - 1) c ++ A)) eqn:E.
        - apply bool_decide_eq_true in E. exists z. rewrite decide_True by set_solver. splits; auto.
          + by rewrite (aget_cells _ _ _ z) by auto.
          + by eapply Forall_lookup_1 in Hlt.
        - apply bool_decide_eq_false in E. exists v. rewrite decide_False by set_solver. auto. }
      rewrite Ex. cbn [Rbind]. unfold assign_to. rewrite aset_bits by done. cbn [Rbind].
      rewrite aset_cells by (destruct Hlc' as [H _]; lia). cbn [Rbind Rsat].
      eexists _, _, _. split; [eapply bs_seed; [done|exact HN|exact Hf]|]. rewrite Em. splits.
      * do 3 f_equal. rewrite (bits_ext (x :: take (size - 1) c ++ A) ((take (size - 1) c ++ [x]) ++ A)); [done|]. set_solver.
      * done.
      * rewrite give_snoc by lia. change (Z.of_nat m) with (enc (Some m)).
        eapply lab_cells_insert; [exact Hlc'|by rewrite give_length|done|]. set_solver.
      * by rewrite give_length.
      * lia.
Qed.
End Cells.

(** ** The loop over the batches *)

(** Sorting each point's neighbours by index. *)
Lemma concat_block {A} k (cs : list (list A)) i c : Forall (fun c => length c = k) cs -> cs !! i = Some c ->
  forall j, j < k -> concat cs !! (i * k + j) = c !! j.
Proof.
  intros H. revert i. induction H as [|d cs Hd _ IH]; intros [|i] Hi j Hj; simpl in *; try done.
  - injection Hi as ->. by rewrite lookup_app_l by lia.
  - rewrite lookup_app_r by lia. rewrite <- (IH _ Hi j Hj). f_equal. lia.
Qed.

Lemma concat_blocks_length {A} k (cs : list (list A)) : Forall (fun c => length c = k) cs -> length (concat cs) = length cs * k.
Proof. induction 1 as [|c cs Hc _ IH]; simpl; [done|]. rewrite app_length. lia. Qed.

Lemma sort_found_sat B st num size cs b c : 0 < size -> length cs = num -> Forall (fun c => length c = size) cs -> filled c (concat cs) ->
  Rsat B (if st : bool then sort_blocks num size (Some (Arr b c)) else Ok (Some (Arr b c))) (fun a =>
    exists c', a = Some (Arr b c') /\ filled c' (concat (arrange st <$> cs)) /\ length c' = length c).
Proof.
  intros Hs Hn Hcs Hf. destruct st.
  2:{ simpl. exists c. splits; auto. unfold arrange. by rewrite list_fmap_id. }
  assert (forall i, Forall (fun c => length c = size) ((arrange true <$> take i cs) ++ drop i cs)) as Hsz.
  { intros i. apply Forall_app. split; [apply Forall_fmap, Forall_take|apply Forall_drop]; auto.
    eapply Forall_impl; [exact Hcs|]. intros d Hd. change (length (arrange true d) = size). by rewrite arrange_length. }
  unfold sort_blocks. apply (forR_sat0 B (fun i a => exists c', a = Some (Arr b c') /\ filled c' (concat ((arrange true <$> take i cs) ++ drop i cs)) /\ length c' = length c)).
  - exists c. splits; auto.
  - intros i a Hi (c1 & -> & Hf1 & Hl1). destruct (lookup_lt_is_Some_2 cs i) as [d Hd]; [lia|].
    assert (length d = size) as Hds by (by eapply (Forall_lookup_1 (fun c => length c = size))).
    set (l1 := (arrange true <$> take i cs) ++ drop i cs) in *.
    assert (length l1 = num) as Hl1n. { unfold l1. rewrite app_length, fmap_length, take_length, drop_length. lia. }
    assert (l1 !! i = Some d) as Hl1i.
    { unfold l1. rewrite lookup_app_r by (rewrite fmap_length, take_length; lia). rewrite fmap_length, take_length, lookup_drop. rewrite <- Hd. f_equal. lia. }
    assert (length (concat l1) = num * size) as Hcl by (rewrite (concat_blocks_length size); [by rewrite Hl1n|apply Hsz]).
    pose proof (filled_length _ _ Hf1) as Hfl.
    rewrite <- Hds. eapply Rsat_mono; [apply (qsort_run_sat B c1 (i * length d) d b)|].
    + intros j x Hj. apply (filled_lookup _ _ _ _ Hf1). rewrite <- Hj, Hds. apply concat_block; [apply Hsz|done|]. apply lookup_lt_Some in Hj. lia.
    + rewrite Hds. nia.
    + intros a (c2 & -> & Hl2 & Hc2). exists c2. splits; [done| |lia]. rewrite Hds in Hc2.
      assert ((arrange true <$> take (S i) cs) ++ drop (S i) cs = <[i := arrange true d]> l1) as ->.
      { unfold l1. rewrite (take_S_r _ _ d) by done. rewrite fmap_app, <- app_assoc.
        rewrite insert_app_r_alt by (rewrite fmap_length, take_length; lia). f_equal. rewrite fmap_length, take_length.
        replace (i - i `min` length cs) with 0 by lia. rewrite (drop_S _ d i) by done. done. }
      assert (Forall (fun c => length c = size) (<[i := arrange true d]> l1)) as Hsz2.
      { apply Forall_insert; [apply Hsz|]. by rewrite arrange_length. }
      assert (length (concat (<[i := arrange true d]> l1)) = num * size) as Hcl2.
      { rewrite (concat_blocks_length size) by done. by rewrite insert_length, Hl1n. }
      apply filled_pointwise; [lia|]. intros p x Hp.
      pose proof (lookup_lt_Some _ _ _ Hp) as Hpl. rewrite Hcl2 in Hpl.
      pose proof (Nat.div_mod p size ltac:(lia)) as Epd. pose proof (Nat.mod_upper_bound p size ltac:(lia)) as Hmod.
      set (q := p / size) in *. set (r := p mod size) in *. assert (p = q * size + r) as Ep by lia. clearbody q r. clear Epd. subst p.
      assert (q < num) as Hq by nia. destruct (lookup_lt_is_Some_2 l1 q) as [e He]; [lia|]. rewrite Hc2.
      destruct (decide (q = i)) as [->|Hqi].
      * rewrite (concat_block size _ i (arrange true d)) in Hp by (auto; apply list_lookup_insert; lia).
        rewrite decide_True by nia. replace (i * size + r - i * size) with r by lia. by rewrite Hp.
      * rewrite (concat_block size _ q e) in Hp by (auto; by rewrite list_lookup_insert_ne by done).
        rewrite decide_False by nia. apply (filled_lookup _ _ _ _ Hf1). rewrite (concat_block size _ q e); auto. apply Hsz.
  - intros a (c' & -> & Hf' & Hl'). exists c'. splits; auto. simpl in Hf'. by rewrite take_ge, drop_ge, app_nil_r in Hf' by lia.
Qed.

Section Run.
Context (cfg : config) (P : provider) (V : pview P) (ds : p_ds P) (n : nat) (G : geometry) (D : dist_fun).
Hypothesis (HP : provider_ok P V ds n G D).
Notation solid w := (no_fail w /\ provider_reliable P V ds n).

(** The neighbours found for [q] satisfy [E q], whatever the query. *)
Definition nn_choice (k : nat) (rad : option double) (E : nat -> list nat -> Prop) : Prop :=
  forall w o q ok nn w', nn_good V o -> nn_set V o = seq 0 n -> query_list n q -> (forall x, cnt x (nn_blk V o) <= cnt x (w_live w)) ->
    p_nn_search P o q k rad w = Ok (Some (ok, nn), w') ->
    exists cs, nn = concat cs /\ Forall2 (fun v c => length c = k /\ E v c) ok cs.

Lemma nn_choice_any k rad : 0 < k -> k <= n -> nn_choice k rad (fun _ _ => True).
Proof.
  intros Hk Hkn w o q ok nn w' Hg Hset Hql Hb Ep.
  assert (k <= length (nn_set V o)) as Hks by (by rewrite Hset, seq_length).
  pose proof (pk_nn_search _ _ _ _ _ _ HP w o q k rad Hg Hql Hk Hks Hb) as Hs. unfold Msat in Hs. rewrite Ep in Hs.
  destruct Hs as (_ & _ & cs & -> & Hcs). exists cs. split; [done|]. eapply Forall2_impl; [exact Hcs|]. intros v c [Hn _]. split; [by eapply nst_len|done].
Qed.

Lemma concat_inj {A} k (cs cs' : list (list A)) : 0 < k -> Forall (fun c => length c = k) cs -> Forall (fun c => length c = k) cs' ->
  concat cs = concat cs' -> cs = cs'.
Proof.
  intros Hk H. revert cs'. induction H as [|c cs Hc _ IH]; intros cs' H' E; destruct H' as [|c' cs' Hc' H']; simpl in E; auto.
  - destruct c'; simpl in *; [lia|done].
  - destruct c; simpl in *; [lia|done].
  - apply app_inj_1 in E as [-> E]; [|congruence]. f_equal. auto.
Qed.

Context (size : nat) (rad : option double) (E : nat -> list nat -> Prop).
Hypothesis (HE : nn_choice size rad E) (Hsize : 0 < size) (Hsn : size <= n).

(** Possible neighbours of a point. *)
Definition found (v : nat) (c : list nat) : Prop :=
  nearest G (seq 0 n) size v c /\ Forall (fun x => within_opt G rad v x = true) c /\ E v c.

(** In the order they are used. *)
Definition neighbours (v : nat) (c : list nat) : Prop :=
  exists c0, found v c0 /\ c = arrange (stable_nng cfg) c0.

Lemma found_facts v c : found v c -> NoDup c /\ length c = size /\ Forall (fun x => x < n) c.
Proof.
  intros (H & _). splits.
  - pose proof (nst_sub _ _ _ _ _ H) as Hs. eapply submseteq_nodup; [exact Hs|]. apply NoDup_seq.
  - by eapply nst_len.
  - pose proof (nst_sub _ _ _ _ _ H) as Hs. apply Forall_forall. intros x Hx. eapply elem_of_submseteq in Hx; [|exact Hs]. apply elem_of_seq in Hx. lia.
Qed.

Lemma neighbours_facts v c : neighbours v c -> NoDup c /\ length c = size /\ Forall (fun x => x < n) c.
Proof.
  intros (c0 & Hf & ->). destruct (found_facts _ _ Hf) as (H1 & H2 & H3). splits.
  - by apply arrange_NoDup.
  - by rewrite arrange_length.
  - by rewrite arrange_perm.
Qed.

Lemma Msat_batch_search B o lenq q Q bb bc b c w :
  nn_good V o -> nn_set V o = seq 0 n -> (forall x, cnt x (nn_blk V o) <= cnt x (w_live w)) ->
  argcells q lenq Q -> Q <> [] -> Forall (fun x => x < n) Q ->
  lenq <= length bc -> lenq * size <= length c ->
  Msat B (nn_search P o lenq q size rad (Some (Some (Arr bb bc))) (Some (Arr b c))) w (fun r w' =>
    wle w w' /\ own w' [] w /\ w_err w' = w_err w /\
    match r with
    | None => ~ solid w
    | Some (num, outq', outnn') => exists ok cs bc' c', ok = filter (feasible G (seq 0 n) size rad) Q /\ Forall2 found ok cs /\ num = length ok /\
        outq' = Some (Some (Arr bb bc')) /\ filled bc' ok /\ length bc' = length bc /\
        outnn' = Some (Arr b c') /\ filled c' (concat cs) /\ length c' = length c
    end).
Proof.
  intros Hg Hset Hb Hq Hne Hlt Hl1 Hl2. unfold nn_search. apply Msat_bind, Msat_lift.
  eapply Rsat_mono; [by apply read_idx_arg|]. intros qs (H1 & H2 & _).
  pose proof (argcells_length _ _ _ Hq) as HlQ.
  assert (query_list n qs) as Hql. { unfold query_list. rewrite H2, H1. auto. }
  assert (size <= length (nn_set V o)) as Hks by (by rewrite Hset, seq_length).
  pose proof (pk_nn_search _ _ _ _ _ _ HP w o qs size rad Hg Hql Hsize Hks Hb) as Hs.
  apply Msat_bind. unfold Msat at 1. unfold Msat at 1 in Hs. destruct (p_nn_search P o qs size rad w) as [[r w']|u] eqn:Ep; [|by destruct Hs].
  simpl in *. destruct Hs as [(L & O & Er) Hs]. destruct r as [[ok nn]|].
  2:{ apply Msat_ret. splits; auto. intros [F Hr].
      pose proof (rel_nn_search _ _ _ _ Hr w o qs size rad Hg Hql Hsize Hks F) as Hx. unfold Msat in Hx. rewrite Ep in Hx. by apply Hx. }
  rewrite H2, Hset in Hs. destruct (search_ok_lengths _ _ _ _ _ _ _ Hs) as [Hl3 Hl4].
  destruct Hs as (Hok & cs & Hnn & Hcs). destruct (HE _ _ _ _ _ _ Hg Hset Hql Hb Ep) as (cs' & Hnn' & Hcs').
  assert (cs' = cs) as ->.
  { apply (concat_inj size); [done| | |congruence].
    - apply Forall_forall. intros c0 Hc0. apply elem_of_list_lookup in Hc0 as [j Hj]. destruct (Forall2_lookup_r _ _ _ _ _ Hcs' Hj) as (v & _ & Hl & _). done.
    - apply Forall_forall. intros c0 Hc0. apply elem_of_list_lookup in Hc0 as [j Hj]. destruct (Forall2_lookup_r _ _ _ _ _ Hcs Hj) as (v & _ & Hl & _). by eapply nst_len. }
  apply Msat_bind, Msat_lift. eapply Rsat_mono; [apply write_out_sat; nia|]. intros onn (b1 & c1 & c' & Eb & -> & Hf & Hlc). injection Eb as <- <-.
  apply Msat_bind, Msat_lift. apply Rsat_bind. eapply Rsat_mono; [apply write_out_sat; lia|].
  intros ob' (b2 & c2 & bc' & Eb & -> & Hf' & Hlb). injection Eb as <- <-. simpl. apply Msat_ret. splits; auto.
  exists ok, cs, bc', c'. rewrite Hnn in Hf. splits; auto.
  apply Forall2_same_length_lookup. split; [by eapply Forall2_length|]. intros j v c0 Hv Hc0.
  destruct (Forall2_lookup_lr _ _ _ _ _ _ Hcs Hv Hc0) as [? ?]. destruct (Forall2_lookup_lr _ _ _ _ _ _ Hcs' Hv Hc0) as [? ?].
  unfold found. auto.
Qed.

(** Points considered for seeds, in order. *)
Definition candidates (Q : list nat) (l : list nat) : list nat := filter (fun v => v ∈ Q /\ feasible G (seq 0 n) size rad v) l.

Notation start := ([], replicate n None, 0).
Notation brun ign := (batch_run ign size neighbours).

Lemma neighbours_ok v c : v < n -> neighbours v c -> NoDup c /\ length c = size /\ Forall (fun x => x < n) c.
Proof. intros _. apply neighbours_facts. Qed.

Lemma candidates_lt Q a m : a + m <= n -> Forall (fun v => v < n) (candidates Q (seq a m)).
Proof. intros H. apply Forall_forall. intros v [_ Hv%elem_of_seq]%elem_of_list_filter. lia. Qed.

(** Considering those of a segment that are not assigned. *)
Lemma brun_segment ign Q (A0 : list nat) s s' l : (forall x, x ∈ A0 -> x ∈ s.1.1) ->
  brun ign (filter (feasible G (seq 0 n) size rad) (filter (fun x => x ∉ A0 /\ x ∈ Q) l)) s s' -> brun ign (candidates Q l) s s'.
Proof.
  intros HA Hr. eapply batch_run_skip; [exact HA|]. unfold candidates. rewrite list_filter_filter in *.
  erewrite list_filter_iff; [exact Hr|]. intros x. simpl. tauto.
Qed.

(** State of the loop. *)
Definition loop_st (ign : bool) (Q : list nat) (lb ab : nat) (curr : nat) (sd : bool) (m : nat) (lab' : option (arr Z)) (assigned' : option (arr bool)) : Prop :=
  exists A L lc, brun ign (candidates Q (seq 0 curr)) start (A, L, m) /\ binv size n (A, L, m) /\
    assigned' = farr ab (bits n A) /\ lab' = Some (Arr lb lc) /\ lab_cells cfg n curr A L lc /\ (N.of_nat m <= cl_max cfg)%N /\
    (sd = false -> forall x, x < curr -> x ∉ Q).

Lemma Msat_batch_iter B o ign prim Q batch_size lb ab bb ob w curr sd m lab' bi out assigned' :
  nn_good V o -> nn_set V o = seq 0 n -> (forall x, cnt x (nn_blk V o) <= cnt x (w_live w)) ->
  prim_bits n prim Q -> 0 < batch_size -> curr <= n ->
  loop_st ign Q lb ab curr sd m lab' assigned' ->
  (exists bc, bi = Some (Arr bb bc) /\ length bc = batch_size) ->
  (exists oc, out = Some (Arr ob oc) /\ length oc = size * batch_size) ->
  Msat B (batch_iter cfg P o n size ign rad prim batch_size (curr, sd, m, lab', bi, out, assigned')) w (fun r w' =>
    wle w w' /\ own w' [] w /\
    match r with
    | inl (curr', sd', m', lab', bi', out', assigned') => w_err w' = w_err w /\ curr < curr' <= n /\ loop_st ign Q lb ab curr' sd' m' lab' assigned' /\
        (exists bc, bi' = Some (Arr bb bc) /\ length bc = batch_size) /\ (exists oc, out' = Some (Arr ob oc) /\ length oc = size * batch_size)
    | inr (ec, (curr', sd', m', lab', bi', out', assigned')) =>
        (exists bc, bi' = Some (Arr bb bc) /\ length bc = batch_size) /\ (exists oc, out' = Some (Arr ob oc) /\ length oc = size * batch_size) /\
        arr_blk assigned' = [ab] /\
        match ec with
        | None => w_err w' = w_err w /\ loop_st ign Q lb ab n sd' m' lab' assigned'
        | Some ec => (exists lc, lab' = Some (Arr lb lc) /\ length lc = n) /\ e_code (w_err w') = ec /\
            ((ec = ER_DIST_SEARCH_ERROR /\ ~ solid w) \/ (ec = ER_TOO_LARGE_PROBLEM /\ (cl_max cfg * N.of_nat size < N.of_nat n)%N))
        end
    end).
Proof.
  intros Hg Hset Hb HQ Hbs Hcn (A & L & lc & Hrun & Hinv & -> & -> & Hlc & Hmax & Hsd) (bc & -> & Hbc) (oc & -> & Hoc).
  pose proof (bi_len _ _ _ Hinv) as HL. simpl in HL. unfold batch_iter.
  destruct (decide (curr < n)) as [Hlt|Hge].
  2:{ apply Msat_ret. split; [wl|]. split; [blk|]. splits; eauto. replace n with curr by lia.
      exists A, L, lc. replace n with curr in * by lia. splits; auto. }
  apply Msat_bind, Msat_lift. eapply Rsat_mono; [apply (collect_batch_sat cfg n B prim Q ab A batch_size curr lb lc L bb bc)|]; auto; try lia.
  { intros x Hx HxA. destruct (lab L x) as [i|] eqn:Ex; [|done]. exfalso.
    destruct (batch_run_touched _ _ _ _ _ _ x Hrun) as [Ht|[Ht|Ht]]; simpl in *; [eauto| | |].
    - destruct Ht as [i' Hi']. unfold lab in Hi'. destruct (replicate n None !! x) as [y|] eqn:Ey; [|done]. apply lookup_replicate_1 in Ey as [-> _]. done.
    - done.
    - apply elem_of_list_filter in Ht as [_ Ht%elem_of_seq]. lia. }
  intros [[[curr' nb] lab1] bi1] (lc1 & bc1 & bl & Hcc & -> & Hlc1 & -> & Hbc1 & Hbl & Hf1 & Hnb & Hnbs & Hend & Hprog).
  specialize (Hprog Hlt Hbs).
  assert (Forall (fun x => x < n /\ x ∈ Q) bl) as Hbln.
  { apply Forall_forall. intros x Hx. rewrite Hbl in Hx. apply elem_of_list_filter in Hx as [[_ ?] Hx%elem_of_seq]. split; [lia|done]. }
  assert (candidates Q (seq 0 curr') = candidates Q (seq 0 curr) ++ candidates Q (seq curr (curr' - curr))) as Hcand.
  { unfold candidates. rewrite <- filter_app, <- seq_app. do 2 f_equal. lia. }
  destruct (decide (nb = 0)) as [H0|H0].
  { apply Msat_ret. split; [wl|]. split; [blk|]. splits; eauto. assert (curr' = n) as -> by lia. exists A, L, lc1.
    assert (bl = []) as Hbl0 by (apply nil_length_inv; lia). splits; auto.
    - rewrite Hcand. eapply batch_run_app; [exact Hrun|]. apply (brun_segment ign Q A); [done|]. rewrite <- Hbl, Hbl0. constructor.
    - intros Es x Hx HxQ. destruct (decide (x < curr)) as [Hxc|Hxc]; [by eapply Hsd|].
      destruct (decide (x ∈ A)) as [HxA|HxA].
      + assert (candidates Q (seq 0 curr) = []) as Ec.
        { unfold candidates. destruct (filter _ (seq 0 curr)) as [|y l] eqn:Ef; [done|]. exfalso.
          assert (y ∈ y :: l) as Hy by left. rewrite <- Ef in Hy. apply elem_of_list_filter in Hy as [[HyQ _] Hy%elem_of_seq]. eapply Hsd; eauto. lia. }
        rewrite Ec in Hrun. inversion Hrun; subst. by apply elem_of_nil in HxA.
      + assert (x ∈ bl) as Hxb; [|rewrite Hbl0 in Hxb; by apply elem_of_nil in Hxb]. rewrite Hbl. apply elem_of_list_filter. split; [done|]. apply elem_of_seq. lia. }
  apply Msat_bind. eapply Msat_mono.
  { apply (Msat_batch_search B o nb (acells (Some (Arr bb bc1))) bl bb bc1 ob oc); auto.
    - simpl. auto.
    - intros ->. simpl in Hnb. done.
    - eapply Forall_impl; [exact Hbln|]. simpl. tauto.
    - lia.
    - nia. }
  intros [[[num outq'] out']|] w1 (L1 & O1 & E1 & H1).
  2:{ apply Msat_bind, Msat_make_error__. intros w2 L2 O2 E2 _. apply Msat_ret. split; [wl|]. split; [blk|]. splits; eauto.
      - eexists. split; [done|]. destruct Hlc1. done.
      - by rewrite E2. }
  destruct H1 as (ok & cs & bc2 & oc2 & Hok & Hcs & -> & -> & Hf2 & Hbc2 & -> & Hfo & Hoc2).
  assert (Forall (fun x => x < n /\ x < curr') ok) as Hokn.
  { apply Forall_forall. intros x Hx. rewrite Hok, Hbl in Hx. apply elem_of_list_filter in Hx as [_ Hx]. apply elem_of_list_filter in Hx as [_ Hx%elem_of_seq]. lia. }
  assert (Forall (fun c => length c = size) cs) as Hcsz0.
  { apply Forall_forall. intros c0 Hc0. apply elem_of_list_lookup in Hc0 as [j Hj]. destruct (Forall2_lookup_r _ _ _ _ _ Hcs Hj) as (v & _ & Hl).
    by destruct (found_facts _ _ Hl) as (_ & ? & _). }
  apply Msat_bind, Msat_lift. eapply Rsat_mono.
  { apply (sort_found_sat B (stable_nng cfg) (length ok) size cs ob oc2); auto. symmetry. by eapply Forall2_length. }
  intros out2 (oc3 & -> & Hfo3 & Hoc3). rewrite <- Hoc3 in Hoc2. clear Hfo Hoc3 oc2. rename oc3 into oc2, Hfo3 into Hfo.
  assert (Forall2 neighbours ok (arrange (stable_nng cfg) <$> cs)) as Hcs'.
  { apply Forall2_fmap_r. eapply Forall2_impl; [exact Hcs|]. intros v c0 Hf0. by exists c0. }
  assert (Forall (fun c => length c = size) (arrange (stable_nng cfg) <$> cs)) as Hcsz.
  { apply Forall_fmap. eapply Forall_impl; [exact Hcsz0|]. intros c0 Hc0. simpl. by rewrite arrange_length. }
  clear Hcs Hcsz0. revert Hcs' Hcsz Hfo. generalize (arrange (stable_nng cfg) <$> cs). clear cs. intros cs Hcs Hcsz Hfo.
  apply Msat_bind, Msat_lift.
  eapply Rsat_mono; [apply (loopR_sat B (fun i '(a', lab', m') => exists A' L' lc', brun ign (take i ok) (A, L, m) (A', L', m') /\ binv size n (A', L', m') /\
     a' = farr ab (bits n A') /\ lab' = Some (Arr lb lc') /\ lab_cells cfg n curr' A' L' lc' /\ (N.of_nat m' <= cl_max cfg)%N)
     (fun lab' => (exists lc, lab' = Some (Arr lb lc) /\ length lc = n) /\ (cl_max cfg * N.of_nat size < N.of_nat n)%N))|].
  - exists A, L, lc1. splits; auto. constructor.
  - intros i [[a' lab'] m'] Hi (A' & L' & lc' & Hr' & Hi' & -> & -> & Hlc' & Hm').
    destruct (lookup_lt_is_Some_2 ok i) as [v Hv]; [lia|]. destruct (Forall2_lookup_l _ _ _ _ _ Hcs Hv) as (c & Hc & Hnc).
    destruct (Forall_lookup_1 _ _ _ _ Hokn Hv) as [Hvn Hvc]. destruct (neighbours_facts _ _ Hnc) as (Hc1 & Hc2 & Hc3).
    eapply Rsat_mono; [apply (batch_point_sat cfg n B size ign bb bc2 ob oc2 ok cs neighbours i v c A' L' m' ab lb lc' curr'); auto; by apply (bi_len _ _ _ Hi')|].
    intros [[[a1 lab1] m1]|lab1].
    + intros (A1 & L1' & lc2 & Hs & -> & -> & Hlc2 & _ & Hm1). exists A1, L1', lc2. splits; auto.
      * rewrite (take_S_r _ _ v) by done. eapply batch_run_app; [exact Hr'|]. econstructor; [exact Hs|constructor].
      * by eapply (batch_step_inv ign size n neighbours Hsize neighbours_ok v).
    + intros (Hmm & -> & HvA & HcA). split; [eexists; split; [done|]; by destruct Hlc'|].
      pose proof (bi_total _ _ _ Hi') as Ht. simpl in Ht. pose proof (bi_nodup _ _ _ Hi') as Hnd. simpl in Hnd. pose proof (bi_lt _ _ _ Hi') as HAl. simpl in HAl.
      assert (length (v :: A') <= n) as Hle.
      { rewrite <- (seq_length n 0). apply submseteq_length, NoDup_submseteq; [by constructor|]. rewrite Forall_forall in HAl.
        intros x [->|Hx]%elem_of_cons; apply elem_of_seq; [lia|]. specialize (HAl x Hx). lia. }
      simpl in Hle. rewrite <- Hmm. nia.
  - intros [[[a' lab'] m']|lab1].
    + rewrite Nat.add_0_l, take_ge by done. intros (A' & L' & lc' & Hr' & Hi' & -> & -> & Hlc' & Hm'). apply Msat_ret.
      split; [wl|]. split; [blk|]. splits; eauto.
      * lia.
      * exists A', L', lc'. splits; auto; [|done]. rewrite Hcand. eapply batch_run_app; [exact Hrun|].
        apply (brun_segment ign Q A); [done|]. rewrite <- Hbl, <- Hok. done.
      * exists bc2. split; [done|]. congruence.
      * exists oc2. split; [done|]. congruence.
    + intros [Hl1 Hbig]. apply Msat_bind, Msat_make_error__. intros w2 L2 O2 E2 _. apply Msat_ret. split; [wl|]. split; [blk|]. splits; auto.
      * exists bc2. split; [done|]. congruence.
      * exists oc2. split; [done|]. congruence.
      * by rewrite E2.
Qed.

Lemma Msat_run_batches B cl o ign prim Q batch_size lb c0 ab bb bc ob oc w :
  nn_good V o -> nn_set V o = seq 0 n -> (forall x, cnt x (nn_blk V o) <= cnt x (w_live w)) ->
  prim_bits n prim Q -> 0 < batch_size -> c_n cl = n -> c_label cl = Some (Arr lb c0) -> length c0 = n ->
  length bc = batch_size -> length oc = size * batch_size ->
  Msat B (run_batches cfg P cl o size ign rad prim batch_size (Some (Arr bb bc)) (Some (Arr ob oc)) (farr ab (bits n []))) w
    (fun '(ec, cl', bi', out', assigned') w' =>
    wle w w' /\ own w' [] w /\ arr_blk bi' = [bb] /\ arr_blk out' = [ob] /\ arr_blk assigned' = [ab] /\
    ((ec = ER_OK /\ w_err w' = w_err w /\ exists A L m, brun ign (candidates Q (seq 0 n)) start (A, L, m) /\ binv size n (A, L, m) /\
        m <> 0 /\ (N.of_nat m <= cl_max cfg)%N /\ cl' = set_k (set_label cl (farr lb (enc cfg <$> L))) m) \/
     (ec <> ER_OK /\ e_code (w_err w') = ec /\ (exists lc, cl' = set_label cl (Some (Arr lb lc)) /\ length lc = n) /\
        ((ec = ER_DIST_SEARCH_ERROR /\ ~ solid w) \/ (ec = ER_TOO_LARGE_PROBLEM /\ (cl_max cfg * N.of_nat size < N.of_nat n)%N) \/
         (ec = ER_NO_SOLUTION /\ candidates Q (seq 0 n) = []))))).
Proof.
  intros Hg Hset Hb HQ Hbs Hn Hcl Hc0 Hbc Hoc. unfold run_batches. rewrite Hn, Hcl. apply Msat_bind.
  apply (loopM_sat B (fun j '(curr, sd, m, lab', bi, out, a') w' => wle w w' /\ own w' [] w /\ w_err w' = w_err w /\ j <= curr <= n /\
      loop_st ign Q lb ab curr sd m lab' a' /\
      (exists bc, bi = Some (Arr bb bc) /\ length bc = batch_size) /\ (exists oc, out = Some (Arr ob oc) /\ length oc = size * batch_size))
    (fun '(ec, (curr', sd', m', lab', bi', out', a')) w' => wle w w' /\ own w' [] w /\
        (exists bc, bi' = Some (Arr bb bc) /\ length bc = batch_size) /\ (exists oc, out' = Some (Arr ob oc) /\ length oc = size * batch_size) /\
        arr_blk a' = [ab] /\
        match ec with
        | None => w_err w' = w_err w /\ loop_st ign Q lb ab n sd' m' lab' a'
        | Some ec => (exists lc, lab' = Some (Arr lb lc) /\ length lc = n) /\ e_code (w_err w') = ec /\
            ((ec = ER_DIST_SEARCH_ERROR /\ ~ solid w) \/ (ec = ER_TOO_LARGE_PROBLEM /\ (cl_max cfg * N.of_nat size < N.of_nat n)%N))
        end)).
  - split; [wl|]. split; [blk|]. split; [done|]. split; [lia|]. split; [|split; eauto]. exists [], (replicate n None), c0. splits; auto.
    + constructor.
    + by apply binv_init.
    + split; [done|]. intros x Hx [?|Hx']; [lia|by apply elem_of_nil in Hx'].
    + lia.
    + intros _ x Hx. lia.
  - intros j [[[[[[curr sd] m] lab'] bi] out] a'] w1 Hj (L1 & O1 & E1 & Hc & Hst & Hbi & Ho).
    eapply Msat_mono; [apply (Msat_batch_iter B o ign prim Q batch_size lb ab bb ob w1); auto; [blk|lia]|].
    intros [[[[[[[curr' sd'] m'] lab1] bi1] out1] a1]|[ec [[[[[[curr' sd'] m'] lab1] bi1] out1] a1]]] w2 (L2 & O2 & H2).
    + destruct H2 as (E2 & Hcc & Hst' & Hbi' & Ho'). splits; auto; [wl|blk|congruence|lia|lia].
    + destruct H2 as (Hbi' & Ho' & Ha' & H2). splits; auto; [wl|blk|]. destruct ec as [ec|].
      * destruct H2 as (Hl & Hec & Hr). splits; auto. destruct Hr as [[? Hns]|Hr]; [left|by right]. split; [done|]. intros HS. apply Hns. by eapply solid_wle.
      * destruct H2 as [E2 Hst']. split; [congruence|done].
  - intros [[[[[[curr sd] m] lab'] bi] out] a'] w1 (_ & _ & _ & Hc & _). lia.
  - intros [ec [[[[[[curr' sd'] m'] lab1] bi1] out1] a1]] w1 (L1 & O1 & (bc1 & -> & _) & (oc1 & -> & _) & Ha & H1).
    destruct ec as [ec|].
    + destruct H1 as ((lc & -> & Hlc) & Hec & Hr). apply Msat_ret. splits; auto. right. splits; auto; [|eauto|naive_solver].
      destruct Hr as [[-> _]|[-> _]]; done.
    + destruct H1 as (E1 & A & L & lc & Hrun & Hinv & -> & -> & Hlc & Hmax & Hsd).
      apply lab_cells_all in Hlc as ->; [|apply (bi_len _ _ _ Hinv)].
      destruct (decide (m' = 0)) as [-> |Hm].
      * destruct (batch_run_none _ _ _ _ _ _ Hrun eq_refl) as [Hcand _].
        apply Msat_bind. destruct sd'; apply Msat_make_error__; intros w2 L2 O2 E2 _; apply Msat_ret; (split; [wl|]); (split; [blk|]); splits; auto; right; splits; auto; try (by rewrite E2);
          (eexists; split; [done|]; rewrite !fmap_length; apply (bi_len _ _ _ Hinv)).
      * apply Msat_ret. splits; auto. left. splits; auto. exists A, L, m'. splits; auto.
Qed.
End Run.

(** ** scc_nng_clustering_batches *)

Lemma Msat_malloc_any A B m w : Msat B (malloc_arr A m) w (fun r w' => wle w w' /\ own w' (arr_blk r) w /\ w_err w' = w_err w /\
  (r = None -> ~ no_fail w) /\ (forall a, r = Some a -> exists b, a = Arr b (fresh A m))).
Proof. apply Msat_malloc_arr; intros; splits; auto; try done. intros a [= <-]. eauto. Qed.

Lemma Msat_calloc_any {A} B m (x : A) w : Msat B (calloc_arr m x) w (fun r w' => wle w w' /\ own w' (arr_blk r) w /\ w_err w' = w_err w /\
  (r = None -> ~ no_fail w) /\ (forall a, r = Some a -> exists b, a = Arr b (replicate m (Some x)))).
Proof. apply Msat_calloc_arr; intros; splits; auto; try done. intros a [= <-]. eauto. Qed.

(** What a call may do to a clustering object: the label array is kept, or
    allocated if there was none. *)
Record clu_kept (cl cl' : clustering) : Prop := {
  ck_version : c_version cl' = c_version cl;
  ck_n : c_n cl' = c_n cl;
  ck_label : match c_label cl, c_label cl' with
             | Some a, Some a' => a_blk a' = a_blk a /\ length (a_cells a') = length (a_cells a) /\ c_ext cl' = c_ext cl
             | None, Some a' => length (a_cells a') = c_n cl /\ c_ext cl' = false
             | None, None => True
             | Some _, None => False
             end
}.

(** The only blocks that remain are those of the label array. *)
Definition labels_own (cl cl' : clustering) (w w' : world) : Prop :=
  forall x, cnt x (w_live w') + cnt x (arr_blk (c_label cl)) = cnt x (arr_blk (c_label cl')) + cnt x (w_live w).

(** The label array, if any, has the right length. *)
Definition clu_ok (cl : clustering) : Prop :=
  match c_label cl with None => True | Some a => length (a_cells a) = c_n cl end.

(** Number of points per batch. *)
Definition eff_batch (n batch_size : nat) : N :=
  N.min (N.of_nat n) (if decide (batch_size = 0) then u32max else N.of_nat batch_size).

Section Top.
Context (cfg : config) (P : provider) (V : pview P) (ds : p_ds P) (n : nat) (G : geometry) (D : dist_fun).
Hypothesis (HP : provider_ok P V ds n G D).
Notation solid w := (no_fail w /\ provider_reliable P V ds n).

(** Clustering [cl'] holds labels [L] of [m] clusters. *)
Definition holds (cl' : clustering) (L : labels) (m : nat) : Prop :=
  (exists lb, c_label cl' = farr lb (enc cfg <$> L)) /\ c_k cl' = m.

Lemma Msat_nng_clustering_batches (B : ub -> Prop) E cl size um rad len_prim prim bs w :
  nn_choice P V n size rad E ->
  is_initialized_clustering cfg (Some cl) = true -> clu_ok cl -> p_check P ds = true -> p_num P ds = n -> c_n cl = n -> c_k cl = 0 ->
  2 <= size -> size <= n -> prim_ok n len_prim prim ->
  (forall r, rad = Some r -> d_le r d_zero = false) -> (is_Some prim -> len_prim <> 0) -> (prim = None -> len_prim = 0) ->
  (N.of_nat size * eff_batch n bs <= u32max)%N ->
  (prim = None \/ no_fail w \/ B NullPtr) ->
  let Q := prim_list n len_prim prim in
  let run := batch_run (bool_decide (um = UM_IGNORE)) size (neighbours cfg n G size rad E) (candidates n G size rad Q (seq 0 n)) ([], replicate n None, 0) in
  Msat B (nng_clustering_batches cfg P cl ds size um rad len_prim prim bs) w (fun '(ec, cl') w' =>
    wle w w' /\ labels_own cl cl' w w' /\ clu_kept cl cl' /\
    ((ec = ER_OK /\ w_err w' = w_err w /\ (um = UM_IGNORE \/ um = UM_ANY_NEIGHBOR) /\
      exists A L m, run (A, L, m) /\ binv size n (A, L, m) /\ m <> 0 /\ (N.of_nat m <= cl_max cfg)%N /\ holds cl' L m) \/
     (ec <> ER_OK /\ e_code (w_err w') = ec /\ c_k cl' = 0 /\
        ((ec = ER_DIST_SEARCH_ERROR /\ ~ solid w) \/ (ec = ER_NO_MEMORY /\ ~ no_fail w) \/
         (ec = ER_TOO_LARGE_PROBLEM /\ (cl_max cfg * N.of_nat size < N.of_nat n)%N) \/
         (ec = ER_NO_SOLUTION /\ (um = UM_IGNORE \/ um = UM_ANY_NEIGHBOR) /\ candidates n G size rad Q (seq 0 n) = []) \/
         (ec = ER_INVALID_INPUT /\ um <> UM_IGNORE /\ um <> UM_ANY_NEIGHBOR /\ cl' = cl))))).
Proof.
  intros HE Hcl Hok Hck Hnum Hn Hk Hs2 Hsn Hprim Hrad Hlp1 Hlp2 Hwrap HB Q run.
  unfold nng_clustering_batches. rewrite Hcl, Hck, Hnum, Hn, Hk. cbn [negb].
  rewrite (decide_False (P := n <> n)) by congruence. rewrite (decide_False (P := size < 2)) by lia. rewrite (decide_False (P := n < size)) by lia.
  destruct (decide (um <> UM_IGNORE /\ um <> UM_ANY_NEIGHBOR)) as [Hum|Hum].
  { apply Msat_bind, Msat_make_error__. intros w1 L1 O1 E1 _. apply Msat_ret. split; [wl|]. split; [unfold labels_own; blk|]. split.
    { constructor; auto. unfold clu_ok in Hok. destruct (c_label cl); auto. }
    right. splits; auto; [by rewrite E1|]. do 4 right. tauto. }
  replace (match rad with Some r => d_le r d_zero | None => false end) with false by (destruct rad; [by rewrite (Hrad _ eq_refl)|done]).
  rewrite (decide_False (P := is_Some prim /\ len_prim = 0)) by tauto.
  rewrite (decide_False (P := prim = None /\ 0 < len_prim)) by (intros [H ?]; specialize (Hlp2 H); lia).
  rewrite (decide_False (P := 0 <> 0)) by congruence.
  set (bsz := if (N.of_nat n <? if decide (bs = 0%nat) then u32max else N.of_nat bs)%N then n else N.to_nat (if decide (bs = 0%nat) then u32max else N.of_nat bs)).
  assert (0 < bsz /\ N.of_nat bsz = eff_batch n bs) as [Hbs Heff].
  { unfold bsz, eff_batch. set (q := if decide (bs = 0%nat) then u32max else N.of_nat bs). assert (q <> 0)%N by (unfold q; destruct (decide (bs = 0%nat)); [done|lia]).
    clearbody q. destruct (N.ltb_spec (N.of_nat n) q); lia. }
  assert (wrapN u32max (size * bsz) = size * bsz) as ->. { apply wrapN_small. rewrite <- Heff in Hwrap. lia. }
  clearbody bsz. clear Heff Hwrap.
  destruct Hprim as (Hpl & Hpne & Hps & Hplt). fold Q in Hpne, Hps, Hplt.
  apply Msat_bind. eapply Msat_mono; [apply (Msat_nn_init P V ds n G D HP B n None (seq 0 n)); auto|].
  { done. }
  { intros E0. apply (f_equal length) in E0. rewrite seq_length in E0. simpl in E0. lia. }
  { apply Forall_forall. intros x Hx%elem_of_seq. lia. }
  { apply NoDup_seq. }
  intros [o|] w1 (L1 & E1 & H1).
  2:{ destruct H1 as [O1 Hns]. apply Msat_bind, Msat_make_error__. intros w2 L2 O2 E2 _. apply Msat_ret. split; [wl|]. split; [unfold labels_own; blk|]. split.
      { constructor; auto. unfold clu_ok in Hok. destruct (c_label cl); auto. }
      right. splits; auto. by rewrite E2. }
  destruct H1 as (O1 & Hg & Hset).
  apply Msat_bind. eapply Msat_mono; [apply Msat_malloc_any|]. intros bi w2 (L2 & O2 & E2 & F2 & S2).
  apply Msat_bind. eapply Msat_mono; [apply Msat_malloc_any|]. intros out w3 (L3 & O3 & E3 & F3 & S3).
  apply Msat_bind. eapply Msat_mono; [apply Msat_calloc_any|]. intros asg w4 (L4 & O4 & E4 & F4 & S4).
  assert (forall Qf : unit -> world -> Prop, (forall w5, wle w4 w5 -> own w5 [] w -> w_err w5 = w_err w -> Qf tt w5) ->
    Msat B (let* _ := free_arr bi in let* _ := free_arr out in let* _ := free_arr asg in let* _ := p_nn_close P o in Mret tt) w4 Qf) as Hclean.
  { intros Qf HQf. apply Msat_bind, Msat_free_arr; [blk|]. intros w5 L5 C5 E5 _.
    apply Msat_bind, Msat_free_arr; [blk|]. intros w6 L6 C6 E6 _. apply Msat_bind, Msat_free_arr; [blk|]. intros w7 L7 C7 E7 _.
    apply Msat_bind. eapply Msat_mono; [apply (Msat_close P V ds n G D HP B o); [done|blk]|]. intros r w8 (L8 & E8 & C8 & _). apply Msat_ret. apply HQf; [wl|blk|congruence]. }
  assert (bi = None \/ out = None \/ asg = None -> ~ no_fail w) as Hnf.
  { intros [H|[H|H]] HS; [apply F2|apply F3|apply F4]; auto; (eapply no_fail_wle; [exact HS|]; wl). }
  assert (clu_kept cl cl) as Hkept. { constructor; auto. unfold clu_ok in Hok. destruct (c_label cl); auto. }
  assert (bi = None \/ out = None \/ asg = None \/ exists bb ob ab, bi = Some (Arr bb (fresh nat bsz)) /\ out = Some (Arr ob (fresh nat (size * bsz))) /\
     asg = Some (Arr ab (replicate n (Some false)))) as Hcase.
  { destruct bi as [a1|]; [|auto]. destruct out as [a2|]; [|auto]. destruct asg as [a3|]; [|auto].
    destruct (S2 _ eq_refl) as [? ->], (S3 _ eq_refl) as [? ->], (S4 _ eq_refl) as [? ->]. eauto 10. }
  assert (bi = None \/ out = None \/ asg = None ->
    Msat B (let* _ := (let* _ := free_arr bi in let* _ := free_arr out in let* _ := free_arr asg in let* _ := p_nn_close P o in Mret tt) in
            let* ec := make_error ER_NO_MEMORY src_batch 125 in Mret (ec, cl)) w4
      (fun '(ec, cl') w' => wle w w' /\ labels_own cl cl' w w' /\ clu_kept cl cl' /\
    ((ec = ER_OK /\ w_err w' = w_err w /\ (um = UM_IGNORE \/ um = UM_ANY_NEIGHBOR) /\
      exists A L m, run (A, L, m) /\ binv size n (A, L, m) /\ m <> 0 /\ (N.of_nat m <= cl_max cfg)%N /\ holds cl' L m) \/
     (ec <> ER_OK /\ e_code (w_err w') = ec /\ c_k cl' = 0 /\
        ((ec = ER_DIST_SEARCH_ERROR /\ ~ solid w) \/ (ec = ER_NO_MEMORY /\ ~ no_fail w) \/
         (ec = ER_TOO_LARGE_PROBLEM /\ (cl_max cfg * N.of_nat size < N.of_nat n)%N) \/
         (ec = ER_NO_SOLUTION /\ (um = UM_IGNORE \/ um = UM_ANY_NEIGHBOR) /\ candidates n G size rad Q (seq 0 n) = []) \/
         (ec = ER_INVALID_INPUT /\ um <> UM_IGNORE /\ um <> UM_ANY_NEIGHBOR /\ cl' = cl)))))) as Hfail.
  { intros Hno. apply Msat_bind, Hclean. intros w5 L5 O5 E5. apply Msat_bind, Msat_make_error__. intros w6 L6 O6 E6 _. apply Msat_ret.
    split; [wl|]. split; [unfold labels_own; blk|]. split; [done|]. right. splits; auto. by rewrite E6. }
  destruct Hcase as [-> |[-> |[-> |(bb & ob & ab & -> & -> & ->)]]].
  { apply Hfail. auto. }
  { destruct bi; apply Hfail; auto. }
  { destruct bi, out; apply Hfail; auto. }
  clear Hfail Hnf F2 F3 F4 S2 S3 S4.
  (* the label array *)
  apply Msat_bind. eapply Msat_mono with (P := fun r w5 => wle w4 w5 /\ w_err w5 = w_err w4 /\
    match r with
    | None => own w5 [] w4 /\ c_label cl = None /\ ~ no_fail w
    | Some cl1 => clu_kept cl cl1 /\ c_k cl1 = 0 /\ c_n cl1 = n /\ (exists lb c0, c_label cl1 = Some (Arr lb c0) /\ length c0 = n) /\
        labels_own cl cl1 w4 w5 /\ (forall x, cnt x (w_live w4) <= cnt x (w_live w5))
    end).
  { destruct (c_label cl) as [[lb c0]|] eqn:Ecl.
    - apply Msat_ret. split; [wl|]. splits; auto; [exists lb, c0; split; [done|]|].
      + unfold clu_ok in Hok. rewrite Ecl in Hok. simpl in Hok. congruence.
      + unfold labels_own. intros x. lia.
    - apply Msat_bind, Msat_malloc_arr.
      + intros w5 L5 O5 E5 _ F5. apply Msat_ret. splits; auto. intros HS. apply F5. eapply no_fail_wle; [exact HS|]. wl.
      + intros w5 b L5 O5 E5 _. apply Msat_ret. splits; auto.
        * constructor; simpl; auto. rewrite Ecl. unfold fresh. rewrite replicate_length. auto.
        * eexists b, _. split; [done|]. unfold fresh. by rewrite replicate_length.
        * unfold labels_own. simpl. rewrite Ecl. simpl. intros x. specialize (O5 x). simpl in O5. lia.
        * intros x. specialize (O5 x). simpl in O5. lia. }
  intros [cl1|] w5 (L5 & E5 & H5).
  2:{ destruct H5 as (O5 & Ecl & Hnf). apply Msat_bind. apply Msat_bind, Msat_free_arr; [blk|]. intros w6 L6 C6 E6 _.
      apply Msat_bind, Msat_free_arr; [blk|]. intros w7 L7 C7 E7 _. apply Msat_bind, Msat_free_arr; [blk|]. intros w8 L8 C8 E8 _.
      apply Msat_bind. eapply Msat_mono; [apply (Msat_close P V ds n G D HP B o); [done|blk]|]. intros r w9 (L9 & E9 & C9 & _). apply Msat_ret.
      apply Msat_bind, Msat_make_error__. intros w10 L10 O10 E10 _. apply Msat_ret. split; [wl|]. split; [unfold labels_own; simpl; rewrite Ecl; blk|].
      split; [constructor; simpl; auto; by rewrite Ecl|]. right. splits; auto. by rewrite E10. }
  destruct H5 as (Hk1 & Hck1 & Hn1 & (lb & c0 & Hl1 & Hc0) & Hown1 & Hmono1). unfold labels_own in Hown1. rewrite Hl1 in Hown1.
  apply Msat_bind. eapply Msat_mono with (P := fun tmp w6 => wle w5 w6 /\ w_err w6 = w_err w5 /\ own w6 (arr_blk tmp) w5 /\ prim_bits n tmp Q).
  { destruct prim as [p|].
    - unfold Q, prim_list in *. cbn in Hpl. assert (len_prim <> 0) as Hlp by (apply Hlp1; eauto).
      apply Msat_bind, Msat_calloc_arr.
      + intros w6 L6 O6 E6 _ F6. apply Msat_lift. destruct HB as [HB|[HB|HB]]; [done|exfalso; apply F6; eapply no_fail_wle; [exact HB|]; wl|].
        destruct len_prim as [|len']; [done|]. simpl. destruct p as [|x p]; [simpl in Hpl; lia|]. simpl. done.
      + intros w6 pb L6 O6 E6 _. apply Msat_lift. rewrite replicate_farr, <- bits_nil.
        apply (forR_sat0 B (fun i t => t = farr pb (bits n (take i p)))).
        * done.
        * intros i t Hi ->. destruct (lookup_lt_is_Some_2 p i) as [x Hx]; [lia|]. rewrite (lget_ok _ _ x) by done. cbn [Rbind].
          assert (x < n) as Hxn. { rewrite Forall_forall in Hplt. apply Hplt. apply elem_of_take. eauto. }
          rewrite aset_bits by done. cbn [Rsat]. rewrite (take_S_r _ _ x) by done. do 3 f_equal.
          rewrite (bits_ext n (x :: take i p) (take i p ++ [x])); [done|]. set_solver.
        * intros t ->. splits; auto. simpl. eauto.
    - apply Msat_ret. split; [wl|]. split; [done|]. split; [blk|]. simpl. intros x Hx. unfold Q, prim_list. apply elem_of_seq. lia. }
  intros tmp w6 (L6 & E6 & O6 & Hpb).
  apply Msat_bind. rewrite replicate_farr, <- bits_nil.
  eapply Msat_mono.
  { eapply (Msat_run_batches cfg P V ds n G D HP size rad E HE ltac:(lia) Hsn B cl1 o (bool_decide (um = UM_IGNORE)) tmp Q bsz lb c0 ab bb (fresh nat bsz) ob (fresh nat (size * bsz)) w6);
      auto; try (unfold fresh; by rewrite replicate_length). blk. }
  intros [[[[ec cl2] bi2] out2] a2] w7 (L7 & O7 & B1 & B2 & B3 & H7). 
  apply Msat_bind, Msat_free_arr; [rewrite B1; blk|]. intros w8 L8 C8 E8 _. rewrite B1 in C8.
  apply Msat_bind, Msat_free_arr; [rewrite B2; blk|]. intros w9 L9 C9 E9 _. rewrite B2 in C9.
  apply Msat_bind, Msat_free_arr; [rewrite B3; blk|]. intros w10 L10 C10 E10 _. rewrite B3 in C10.
  apply Msat_bind, Msat_free_arr; [blk|]. intros w11 L11 C11 E11 _.
  apply Msat_bind. eapply Msat_mono; [apply (Msat_close P V ds n G D HP B o); [done|blk]|]. intros r w12 (L12 & E12 & C12 & _). apply Msat_ret.
  split; [wl|].
  assert (forall lc, length lc = n -> clu_kept cl (set_label cl1 (Some (Arr lb lc)))) as Hkeep2.
  { intros lc Hlc. destruct Hk1 as [K1 K2 K3]. constructor; simpl; auto. destruct (c_label cl) as [a|]; rewrite Hl1 in K3; simpl in *; [|destruct K3; split; [congruence|done]].
    destruct K3 as (? & ? & ?). splits; auto. congruence. }
  assert (um = UM_IGNORE \/ um = UM_ANY_NEIGHBOR) as Hum'.
  { destruct (decide (um = UM_IGNORE)); [auto|]. destruct (decide (um = UM_ANY_NEIGHBOR)); [auto|]. tauto. }
  assert (w_err w12 = w_err w7) as E712 by congruence.
  destruct H7 as [(-> & E7 & A & L & m & Hrun & Hinv & Hm & Hmax & ->)|(Hec & Hcode & (lc & -> & Hlc) & Hr)].
  - pose proof (bi_len _ _ _ Hinv) as HL. simpl in HL. split; [unfold labels_own; simpl; blk|]. split.
    { destruct (Hkeep2 (Some <$> (enc cfg <$> L))) as [K1 K2 K3]; [by rewrite !fmap_length|]. constructor; auto. }
    left. splits; auto; [congruence|]. exists A, L, m. splits; auto. split; simpl; eauto.
  - split; [unfold labels_own; simpl; blk|]. split; [auto|]. right. splits; auto; [congruence|].
    destruct Hr as [[? Hns]|[?|[? ?]]]; auto.
    + left. split; [done|]. intros HS. apply Hns. eapply solid_wle; [|exact HS]. wl.
    + do 3 right. left. auto.
Qed.
End Top.
