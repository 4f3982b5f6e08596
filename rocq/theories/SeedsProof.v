(** What the seed finding methods of src/nng_findseeds.c compute: lexical and
    inwards methods. *)

From Coq Require Import Strings.String.
From stdpp Require Import prelude list.
From Coq Require Import NArith ZArith.
From Verif Require Import Base World Mem Digraph DigraphRep DigraphUnion DigraphDiff GraphSpec Arrays SeedSpec
  Options Seeds SeedsSort.
Open Scope string_scope. Open Scope list_scope. Open Scope nat_scope.

Section Proof.
Context (cfg : config).

(** [sr] holds the seeds [ss] in block [b]. *)
Definition seed_st (sr : seed_result) (ss : list nat) (b : nat) : Prop :=
  exists c, sr_seeds sr = Some (Arr b c) /\ filled c ss /\ sr_count sr = length ss /\
    sr_cap sr = length c /\ (N.of_nat (length ss) <= cl_max cfg)%N.

Lemma seed_st_init cap b : seed_st (SR cap 0 (Some (Arr b (fresh nat cap)))) [] b.
Proof.
  exists (fresh nat cap). unfold fresh. rewrite replicate_length. splits; auto; [apply filled_nil|simpl; lia].
Qed.

Definition seed_fail (TL : Prop) (w : world) (ec : ecode) (w' : world) : Prop :=
  ec <> ER_OK /\ e_code (w_err w') = ec /\
  ((ec = ER_NO_MEMORY /\ ~ no_fail w) \/ (ec = ER_TOO_LARGE_PROBLEM /\ TL)).

Lemma Msat_add_seed B s sr ss b w (Q : ecode * seed_result -> world -> Prop) :
  seed_st sr ss b -> (forall x, cnt x [b] <= cnt x (w_live w)) ->
  (forall ec sr' w', sr_seeds sr' = sr_seeds sr -> wle w w' -> w_tick w' = w_tick w -> own w' [] w ->
     seed_fail (cl_max cfg <= N.of_nat (length ss))%N w ec w' -> Q (ec, sr') w') ->
  (forall sr' w' b', seed_st sr' (ss ++ [s]) b' -> wle w w' -> w_tick w' = w_tick w -> w_err w' = w_err w ->
     (forall x, cnt x (w_live w') + cnt x [b] = cnt x (w_live w) + cnt x [b']) -> Q (ER_OK, sr') w') ->
  Msat B (add_seed cfg s sr) w Q.
Proof.
  intros (c & Hs & Hf & Hc & Hcap & Hcl) Hb HE HO. unfold add_seed. rewrite Hc.
  destruct (N.eqb_spec (N.of_nat (length ss)) (cl_max cfg)) as [Heq|Hne].
  { apply Msat_bind, Msat_make_error__. intros w1 L1 O1 E1 T1. apply Msat_ret. apply HE; auto.
    split; [done|]. rewrite E1. split; [done|]. right. split; [done|lia]. }
  assert (forall sr1 b1 c1 w1, sr_seeds sr1 = Some (Arr b1 c1) -> filled c1 ss -> sr_count sr1 = length ss ->
     sr_cap sr1 = length c1 -> length ss < length c1 -> wle w w1 -> w_tick w1 = w_tick w -> w_err w1 = w_err w ->
     (forall x, cnt x (w_live w1) + cnt x [b] = cnt x (w_live w) + cnt x [b1]) ->
     Msat B (let* p := lift (aset (sr_seeds sr1) (sr_count sr1) s) in
             Mret (ER_OK, SR (sr_cap sr1) (sr_count sr1 + 1) p)) w1 Q) as Hfin.
  { intros sr1 b1 c1 w1 S1 F1 C1 K1 Hlt L1 T1 E1 O1. rewrite S1, C1. apply Msat_bind, Msat_lift.
    rewrite aset_cells by done. simpl. apply Msat_ret. apply (HO _ _ b1); auto.
    eexists. split; [done|]. split; [by apply filled_snoc|]. simpl. rewrite app_length, insert_length. simpl.
    split; [done|]. split; [done|]. lia. }
  pose proof (filled_length _ _ Hf) as Hfl.
  destruct (decide (length ss = sr_cap sr)) as [Hfull|Hnf].
  - set (cap := if (cl_max cfg <? _)%N then _ else _).
    assert (length ss < cap) as Hgt.
    { unfold cap. destruct (N.ltb_spec (cl_max cfg) (N.of_nat (sr_cap sr + sr_cap sr / 8 + 1024))); lia. }
    rewrite Hs. apply Msat_bind, Msat_bind, Msat_realloc_arr.
    { specialize (Hb b). simpl in Hb. rewrite decide_True in Hb by done. lia. }
    + intros w1 L1 O1 E1 T1 F1. apply Msat_bind, Msat_make_error__. intros w2 L2 O2 E2 T2. apply Msat_ret.
      rewrite decide_True by done. apply Msat_ret. apply HE; [done|eauto|congruence|blk|].
      split; [done|]. rewrite E2. split; [done|]. by left.
    + intros w1 b1 L1 O1 E1 T1. apply Msat_ret. rewrite decide_False by (intros H; by apply H).
      apply (Hfin _ b1 (resize cap c)); auto.
      * apply filled_resize; [done|lia].
      * by rewrite resize_length.
      * by rewrite resize_length.
  - apply Msat_bind, Msat_ret. rewrite decide_False by (intros H; by apply H).
    apply (Hfin _ b c); auto. lia.
Qed.

(** ** Marks *)

Definition marks_of (g : list (list nat)) (ss : list nat) : list bool :=
  (fun v => bool_decide (covered g ss v)) <$> seq 0 (length g).

Lemma marks_length g ss : length (marks_of g ss) = length g.
Proof. unfold marks_of. by rewrite fmap_length, seq_length. Qed.

Lemma marks_lookup g ss v : v < length g -> marks_of g ss !! v = Some (bool_decide (covered g ss v)).
Proof. intros H. unfold marks_of. rewrite list_lookup_fmap, lookup_seq_lt by done. done. Qed.

Lemma marks_nil g : marks_of g [] = replicate (length g) false.
Proof.
  apply list_eq_same_length with (length g); [by rewrite replicate_length|by rewrite marks_length|].
  intros i x y Hi. rewrite marks_lookup, lookup_replicate_2 by done.
  rewrite bool_decide_eq_false_2; [congruence|]. intros (s & Hs & _). by apply elem_of_nil in Hs.
Qed.

Lemma adj_lookup (g : list (list nat)) v : v < length g -> g !! v = Some (adj g v).
Proof. intros H. rewrite adj_row. by apply row_lookup. Qed.

Lemma adj_lt dg g v x : dg_rep cfg dg g -> x ∈ adj g v -> v < length g /\ x < length g.
Proof.
  intros H Hx. unfold adj in Hx. destruct (g !! v) eqn:E; [|by apply elem_of_nil in Hx].
  split; [by eapply lookup_lt_Some|]. eapply rep_lookup_lt; eauto.
Qed.

Lemma offs_eq_adj (g : list (list nat)) v : v < length g -> (offs g v = offs g (v + 1) <-> adj g v = []).
Proof.
  intros H. rewrite Nat.add_1_r. rewrite (offs_S g v (adj g v)) by (by apply adj_lookup).
  split; [intros E; apply nil_length_inv; lia|intros ->; simpl; lia].
Qed.

Lemma check_marks_sat B dg g ss v b : dg_rep cfg dg g -> v < length g ->
  Rsat B (check_neighbors_marks v dg (farr b (marks_of g ss))) (fun r => r = bool_decide (addable g ss v)).
Proof.
  intros H Hv. unfold check_neighbors_marks.
  rewrite (aget_farr _ _ _ _ (marks_lookup g ss v Hv)). cbn [Rbind].
  case_bool_decide as Hm.
  { simpl. symmetry. apply bool_decide_eq_false. intros [_ Hf]. inversion Hf; subst. done. }
  rewrite !(rep_tail_get cfg dg g) by (done || lia). cbn [Rbind].
  destruct (decide (offs g v = offs g (v + 1))) as [E|E].
  { simpl. symmetry. apply bool_decide_eq_false. intros [Hn _]. apply Hn. by apply offs_eq_adj. }
  rewrite (loop_arcs_fold cfg dg g v (adj g v)) by (done || by apply adj_lookup).
  apply Rsat_bind. eapply Rsat_mono.
  - apply (foldXR_sat B (fun pre (_ : unit) => Forall (fun u => ~ covered g ss u) pre)
       (fun b : bool => b = false /\ ~ addable g ss v)); [constructor|].
    intros pre x post [] Heq Hpre.
    assert (x ∈ adj g v) as Hx by (rewrite Heq; apply elem_of_app; right; left).
    rewrite (aget_farr _ _ _ _ (marks_lookup g ss x (proj2 (adj_lt _ _ _ _ H Hx)))). cbn [Rbind].
    case_bool_decide as Hc; simpl.
    + split; [done|]. intros [_ Hf]. inversion Hf as [|? ? _ Hf']; subst. rewrite Forall_forall in Hf'. by eapply Hf'.
    + apply Forall_app. split; [done|]. by constructor.
  - intros [[]|r] Hr; simpl.
    + symmetry. apply bool_decide_eq_true. split; [intros Hn; by apply E, offs_eq_adj|]. by constructor.
    + destruct Hr as [-> Hr]. symmetry. by apply bool_decide_eq_false.
Qed.

Lemma insert_marks (g : list (list nat)) (P Q : nat -> Prop) `{!forall x, Decision (P x), !forall x, Decision (Q x)} x n :
  x < n -> (forall y, Q y <-> P y \/ y = x) ->
  <[x := true]> ((fun y => bool_decide (P y)) <$> seq 0 n) = (fun y => bool_decide (Q y)) <$> seq 0 n.
Proof.
  intros Hx HQ. apply list_eq_same_length with n; [by rewrite fmap_length, seq_length|
    by rewrite insert_length, fmap_length, seq_length|].
  intros i a c Hi. rewrite lookup_insert_dec by (by rewrite fmap_length, seq_length).
  rewrite !list_lookup_fmap, !lookup_seq_lt by done. simpl. intros Ha [= <-].
  destruct (decide (x = i)) as [<-|Hne].
  - injection Ha as <-. symmetry. apply bool_decide_eq_true. rewrite HQ. auto.
  - injection Ha as <-. apply bool_decide_ext. rewrite HQ. naive_solver.
Qed.

Lemma mark_seed_sat B dg g ss v b : dg_rep cfg dg g -> v < length g ->
  Rsat B (mark_seed_neighbors v dg (farr b (marks_of g ss))) (fun m => m = farr b (marks_of g (ss ++ [v]))).
Proof.
  intros H Hv. unfold mark_seed_neighbors.
  rewrite (for_arcs_fold cfg dg g v (adj g v)) by (done || by apply adj_lookup).
  apply Rsat_bind. eapply Rsat_mono.
  - apply (foldR_sat B (fun pre m => m = farr b ((fun u => bool_decide (covered g ss u \/ u ∈ pre)) <$> seq 0 (length g)))).
    + do 3 f_equal. apply list_fmap_ext. intros _ x _. apply bool_decide_ext. rewrite elem_of_nil. tauto.
    + intros pre x post m Heq ->.
      assert (x ∈ adj g v) as Hx by (rewrite Heq; apply elem_of_app; right; left).
      rewrite aset_farr by (rewrite fmap_length, seq_length; apply (adj_lt _ _ _ _ H Hx)). simpl. do 3 f_equal.
      apply insert_marks; [done|apply (adj_lt _ _ _ _ H Hx)|]. intros y. rewrite elem_of_app, elem_of_list_singleton. tauto.
  - intros m ->. rewrite aset_farr by (by rewrite fmap_length, seq_length). simpl. do 3 f_equal.
    apply insert_marks; [done|done|]. intros y. rewrite covered_app, covered_single. unfold closed.
    rewrite elem_of_cons. tauto.
Qed.

(** ** Outcome of a method *)

Definition seeds_post (TL LK : Prop) (P : list nat -> Prop) (w : world)
    (r : ecode * seed_result) (w' : world) : Prop :=
  wle w w' /\ w_tick w' = w_tick w /\
  (r.1 = ER_OK -> exists ss b, own w' [b] w /\ (w_err w' = w_err w \/ w_err w' = no_errst) /\
     seed_st r.2 ss b /\ P ss) /\
  (r.1 <> ER_OK -> seed_fail TL w r.1 w' /\ exists lk, own w' lk w /\ (lk = [] \/ LK)).

Lemma seed_fail_wle (TL TL' : Prop) w w1 ec w' : wle w w1 -> (TL -> TL') ->
  seed_fail TL w1 ec w' -> seed_fail TL' w ec w'.
Proof.
  intros L Ht (H1 & H2 & H3). split; [done|]. split; [done|]. destruct H3 as [[? F]|[? ?]]; [left|right; auto].
  split; [done|]. intros F'. apply F. by eapply no_fail_wle.
Qed.

Lemma greedy_le_n g ord : length (greedy g [] ord) <= length ord.
Proof.
  assert (forall acc, length (greedy g acc ord) <= length acc + length ord) as Hh.
  { induction ord as [|v ord IH]; intros acc; simpl; [lia|]. specialize (IH (if decide (addable g acc v) then acc ++ [v] else acc)).
    destruct (decide (addable g acc v)); [rewrite app_length in IH; simpl in IH|]; lia. }
  apply (Hh []).
Qed.

Lemma greedy_take_S g ord k v : ord !! k = Some v ->
  greedy g [] (take (S k) ord) =
    if decide (addable g (greedy g [] (take k ord)) v) then greedy g [] (take k ord) ++ [v] else greedy g [] (take k ord).
Proof. intros H. rewrite (take_S_r _ _ v) by done. apply greedy_snoc. Qed.

Lemma Msat_lexical B dg g cap w : dg_rep cfg dg g ->
  Msat B (findseeds_lexical cfg dg (SR cap 0 None)) w
    (seeds_post (cl_max cfg < N.of_nat (length g))%N False (fun ss => ss = greedy g [] (seq 0 (length g))) w).
Proof.
  intros H. unfold findseeds_lexical. rewrite (rep_n _ _ _ H). cbn [sr_cap sr_count].
  set (TL := (cl_max cfg < N.of_nat (length g))%N).
  set (P := fun ss => ss = greedy g [] (seq 0 (length g))).
  assert (forall (m : option (arr bool)) (s : option (arr nat)) w1 sr, wle w w1 -> w_tick w1 = w_tick w ->
    own w1 (arr_blk m ++ arr_blk s) w -> ~ no_fail w ->
    Msat B (let* _ := free_arr m in let* _ := free_arr s in
            let* ec := make_error ER_NO_MEMORY "src/nng_findseeds.c" 197 in Mret (ec, sr)) w1
      (seeds_post TL False P w)) as Hfail.
  { intros m s w1 sr L1 T1 O1 F. apply Msat_bind, Msat_free_arr; [blk|]. intros w2 L2 O2 E2 T2.
    apply Msat_bind, Msat_free_arr; [blk|]. intros w3 L3 O3 E3 T3.
    apply Msat_bind, Msat_make_error__. intros w4 L4 O4 E4 T4. apply Msat_ret.
    split; [eauto|]. split; [congruence|]. split; [done|]. intros _. simpl. split.
    - split; [done|]. rewrite E4. split; [done|]. by left.
    - exists []. split; [blk|by left]. }
  apply Msat_bind, Msat_calloc_arr.
  { intros w1 L1 O1 E1 T1 F1. apply Msat_bind, Msat_malloc_arr.
    - intros w2 L2 O2 E2 T2 F2. rewrite decide_True by auto. apply Hfail; [eauto|congruence|simpl; blk|done].
    - intros w2 b2 L2 O2 E2 T2. rewrite decide_True by auto. apply Hfail; [eauto|congruence|simpl; blk|done]. }
  intros w1 b1 L1 O1 E1 T1. apply Msat_bind, Msat_malloc_arr.
  { intros w2 L2 O2 E2 T2 F2. rewrite decide_True by auto. apply Hfail; [eauto|congruence|simpl; blk|].
    intros F. apply F2. by eapply no_fail_wle. }
  intros w2 b2 L2 O2 E2 T2. rewrite decide_False by (intros [|]; discriminate).
  apply Msat_bind. rewrite replicate_farr, <- marks_nil.
  apply (loopM_sat B (fun k '(marks, sr) w' => exists ss b, wle w w' /\ w_tick w' = w_tick w /\ w_err w' = w_err w /\
       own w' [b1; b] w /\ marks = farr b1 (marks_of g ss) /\ seed_st sr ss b /\ ss = greedy g [] (seq 0 k))
     (fun r w' => r.1 <> ER_OK /\ seeds_post TL False P w r w')).
  - exists [], b2. splits; [eauto|congruence|congruence|blk|done|apply seed_st_init|done].
  - intros k [marks sr] w3 Hk (ss & b & L3 & T3 & E3 & O3 & -> & Hst & Hss).
      apply Msat_bind, Msat_lift. eapply Rsat_mono; [by apply check_marks_sat|]. intros c ->.
      replace (S k) with (k + 1) by lia.
      assert (greedy g [] (seq 0 (k + 1)) = if decide (addable g ss k) then ss ++ [k] else ss) as Hg.
      { rewrite seq_app, greedy_app, <- Hss. done. }
      case_bool_decide as Ha; [rewrite decide_True in Hg by done|rewrite decide_False in Hg by done].
      2:{ apply Msat_ret. exists ss, b. splits; auto. }
      apply Msat_bind. eapply Msat_add_seed; [done|blk| |].
      * intros ec sr' w4 Hs4 L4 T4 O4 Hf. rewrite decide_True by apply Hf.
        destruct Hst as (c & Hs & _). rewrite Hs4, Hs.
        apply Msat_bind, Msat_free_arr; [simpl; blk|]. intros w5 L5 O5 E5 T5.
        apply Msat_bind, Msat_free_arr; [simpl; blk|]. intros w6 L6 O6 E6 T6.
        apply Msat_ret. simpl. split; [apply Hf|]. split; [eauto 8|]. split; [congruence|]. simpl.
        split; [intros ->; by destruct Hf as [? _]|]. intros _. split.
        -- destruct Hf as (F1 & F2 & F3). split; [done|]. split; [congruence|].
           destruct F3 as [[-> F3]|[-> F3]]; [left|right]; (split; [done|]).
           ++ intros F. apply F3. eapply no_fail_wle; eauto.
           ++ unfold TL. assert (length ss <= k); [|lia]. rewrite Hss.
              etransitivity; [apply greedy_le_n|]. by rewrite seq_length.
        -- exists []. split; [blk|by left].
      * intros sr' w4 b' Hst' L4 T4 E4 O4. rewrite decide_False by (intros Hn; by apply Hn).
        apply Msat_bind, Msat_lift. eapply Rsat_mono; [by apply mark_seed_sat|]. intros m ->.
        apply Msat_ret. exists (ss ++ [k]), b'. splits; [eauto|congruence|congruence|blk|done|done|done].
  - intros [marks sr] w3. intros (ss & b & L3 & T3 & E3 & O3 & -> & Hst & Hss). apply Msat_bind, Msat_free_arr; [simpl; blk|].
    intros w4 L4 O4 E4 T4. apply Msat_ret. split; [eauto|]. split; [congruence|]. split; [|done]. intros _.
    exists ss, b. splits; auto; [blk|left; congruence].
  - intros r w3 [Hr Hp]. by apply Msat_ret.
Qed.

(** ** Inwards methods *)

Definition inw_upd (dg : digraph) (updating : bool) (marks : option (arr bool)) (k v : nat) (so : sort_result) : R sort_result :=
  if updating then inwards_update_seed cfg dg marks k v so else Ok so.
Definition inw_skip (dg : digraph) (updating : bool) (marks : option (arr bool)) (k v : nat) (so : sort_result) : R sort_result :=
  if updating then
    let! m := aget marks v in
    if (m : bool) then Ok so else inwards_update_skip cfg dg marks k v so
  else Ok so.

Lemma inwards_loop B dg g (updating : bool) (SI : nat -> list nat -> sort_result -> Prop) (P : list nat -> Prop) cap w :
  dg_rep cfg dg g -> (forall v, v < length g -> (N.of_nat (icf g v) <= pi_max cfg)%N) ->
  (forall k ss so, SI k ss so -> length ss <= k) ->
  (forall so w0 w1, sort_post updating g w0 (ER_OK, so) w1 -> SI 0 [] so) ->
  (forall b k ss so, k < length g -> SI k ss so -> exists v, aget (so_sv so) k = Ok v /\ v < length g /\
     (if decide (addable g ss v) then
        Rsat B (inw_upd dg updating (farr b (marks_of g (ss ++ [v]))) k v so) (fun so' =>
          so_blocks so' = so_blocks so /\ SI (S k) (ss ++ [v]) so')
      else Rsat B (inw_skip dg updating (farr b (marks_of g ss)) k v so) (fun so' =>
          so_blocks so' = so_blocks so /\ SI (S k) ss so'))) ->
  (forall ss so, SI (length g) ss so -> P ss) ->
  Msat B (findseeds_inwards cfg dg updating (SR cap 0 None)) w
    (seeds_post (cl_max cfg < N.of_nat (length g))%N False P w).
Proof.
  intros H Hpi Hlen Hinit Hstep Hend. unfold findseeds_inwards. rewrite (rep_n _ _ _ H). cbn [sr_cap sr_count].
  set (TL := (cl_max cfg < N.of_nat (length g))%N).
  apply Msat_bind. eapply Msat_mono; [by apply (Msat_sort_by_inwards cfg B dg g updating w)|].
  intros [ec so] w0 Hpost. pose proof Hpost as (L0 & T0 & Hok & Herr). simpl in Hok, Herr.
  destruct (decide (ec <> ER_OK)) as [Hec|Hec].
  { destruct (Herr Hec) as (E1 & E2 & E3 & E4). apply Msat_ret. split; [done|]. split; [done|]. simpl. split; [done|].
    intros _. split; [split; [done|]; split; [done|]; by left|]. exists []. auto. }
  assert (ec = ER_OK) as -> by (destruct ec; try done; exfalso; by apply Hec).
  destruct (Hok eq_refl) as (O0 & E0 & _). apply Hinit in Hpost. clear Hok Herr Hec.
  assert (forall (m : option (arr bool)) (s : option (arr nat)) w1 sr, wle w w1 -> w_tick w1 = w_tick w ->
    own w1 (so_blocks so ++ arr_blk m ++ arr_blk s) w -> ~ no_fail w ->
    Msat B (let* _ := free_sort_result so in let* _ := free_arr m in let* _ := free_arr s in
            let* ec := make_error ER_NO_MEMORY "src/nng_findseeds.c" 245 in Mret (ec, sr)) w1
      (seeds_post TL False P w)) as Hfail.
  { intros m s w1 sr L1 T1 O1 F. apply Msat_bind, Msat_free_sort; [blk|]. intros w5 L5 O5 E5 T5.
    apply Msat_bind, Msat_free_arr; [blk|]. intros w2 L2 O2 E2 T2.
    apply Msat_bind, Msat_free_arr; [blk|]. intros w3 L3 O3 E3 T3.
    apply Msat_bind, Msat_make_error__. intros w4 L4 O4 E4 T4. apply Msat_ret.
    split; [eauto 8|]. split; [congruence|]. split; [done|]. intros _. simpl. split.
    - split; [done|]. rewrite E4. split; [done|]. by left.
    - exists []. split; [blk|by left]. }
  apply Msat_bind, Msat_calloc_arr.
  { intros w1 L1 O1 E1 T1 F1. assert (~ no_fail w) as F. { intros F. apply F1. eapply no_fail_wle; eauto. }
    apply Msat_bind, Msat_malloc_arr.
    - intros w2 L2 O2 E2 T2 F2. rewrite decide_True by auto. apply Hfail; [eauto|congruence|simpl; blk|done].
    - intros w2 b2 L2 O2 E2 T2. rewrite decide_True by auto. apply Hfail; [eauto|congruence|simpl; blk|done]. }
  intros w1 b1 L1 O1 E1 T1. apply Msat_bind, Msat_malloc_arr.
  { intros w2 L2 O2 E2 T2 F2. rewrite decide_True by auto. apply Hfail; [eauto|congruence|simpl; blk|].
    intros F. apply F2. eapply no_fail_wle; eauto. }
  intros w2 b2 L2 O2 E2 T2. rewrite decide_False by (intros [|]; discriminate).
  apply Msat_bind. rewrite replicate_farr, <- marks_nil.
  apply (loopM_sat B (fun k '(marks, sr, so) w' => exists ss b, wle w w' /\ w_tick w' = w_tick w /\ w_err w' = w_err w /\
       own w' ([b1; b] ++ so_blocks so) w /\ marks = farr b1 (marks_of g ss) /\ seed_st sr ss b /\ SI k ss so)
     (fun r w' => seeds_post TL False P w r w')).
  - exists [], b2. splits; [eauto|congruence|congruence|blk|done|apply seed_st_init|done].
  - clear so O0 O1 O2 Hpost Hfail. intros k [[marks sr] so] w3 Hk (ss & b & L3 & T3 & E3 & O3 & -> & Hst & HSI).
    unfold inwards_step. destruct (Hstep b1 k ss so Hk HSI) as (v & Hv & Hvn & Hs). rewrite Hv.
    apply Msat_bind, Msat_lift. simpl Rsat.
    apply Msat_bind, Msat_lift. eapply Rsat_mono; [by apply check_marks_sat|]. intros c ->.
    destruct (decide (addable g ss v)) as [Ha|Ha].
    + rewrite bool_decide_eq_true_2 by done. apply Msat_bind. eapply Msat_add_seed; [done|blk| |].
      * intros ec sr' w4 Hs4 L4 T4 O4 Hf. rewrite decide_True by apply Hf.
        destruct Hst as (c & Hs' & _). rewrite Hs4, Hs'.
        apply Msat_bind, Msat_free_sort; [blk|]. intros w7 L7 O7 E7 T7.
        apply Msat_bind, Msat_free_arr; [simpl; blk|]. intros w5 L5 O5 E5 T5.
        apply Msat_bind, Msat_free_arr; [simpl; blk|]. intros w6 L6 O6 E6 T6.
        apply Msat_ret. simpl. split; [eauto 8|]. split; [congruence|]. simpl.
        split; [intros ->; by destruct Hf as [? _]|]. intros _. split.
        -- destruct Hf as (F1 & F2 & F3). split; [done|]. split; [congruence|].
           destruct F3 as [[-> F3]|[-> F3]]; [left|right]; (split; [done|]).
           ++ intros F. apply F3. eapply no_fail_wle; eauto.
           ++ unfold TL. pose proof (Hlen _ _ _ HSI). lia.
        -- exists []. split; [blk|by left].
      * intros sr' w4 b' Hst' L4 T4 E4 O4. rewrite decide_False by (intros Hn; by apply Hn).
        apply Msat_bind, Msat_lift. eapply Rsat_mono; [by apply mark_seed_sat|]. intros m ->.
        apply Msat_bind, Msat_lift. eapply Rsat_mono; [exact Hs|]. intros so' [Hb HSI'].
        apply Msat_ret. exists (ss ++ [v]), b'. rewrite Hb. splits; [eauto|congruence|congruence|blk|done|done|done].
    + rewrite bool_decide_eq_false_2 by done. unfold inw_skip in Hs. destruct updating.
      * rewrite (aget_farr _ _ _ _ (marks_lookup g ss v Hvn)) in *. cbn [Rbind] in Hs.
        apply Msat_bind, Msat_lift. simpl Rsat. apply Msat_bind, Msat_lift.
        eapply Rsat_mono; [exact Hs|]. intros so' [Hb HSI']. apply Msat_ret. exists ss, b. rewrite Hb. splits; auto.
      * destruct Hs as [_ HSI']. apply Msat_ret. exists ss, b. splits; auto.
  - clear so O0 O1 O2 Hpost Hfail. intros [[marks sr] so] w3. intros (ss & b & L3 & T3 & E3 & O3 & -> & Hst & HSI).
    apply Msat_bind, Msat_free_sort; [blk|]. intros w5 L5 O5 E5 T5. apply Msat_bind, Msat_free_arr; [simpl; blk|].
    intros w4 L4 O4 E4 T4. apply Msat_ret. split; [eauto|]. split; [congruence|]. split; [|done]. intros _.
    exists ss, b. splits; eauto; [blk|left; congruence].
  - intros r w3 Hp. by apply Msat_ret.
Qed.

Lemma icf_le g v : Forall (@NoDup nat) g -> icf g v <= length g.
Proof. intros H. unfold icf. rewrite nb_cnt_concat by done. apply nb_le_n. Qed.

Lemma icf_indegree g v : Forall (@NoDup nat) g -> icf g v = indegree g v.
Proof.
  intros H. unfold icf, indegree, arcs_from. rewrite nb_cnt_concat, nb_filter by done. apply nb_ext. intros x _.
  apply bool_decide_ext. naive_solver.
Qed.

Lemma Msat_inwards_order B dg g cap w : dg_rep cfg dg g -> Forall (@NoDup nat) g -> (N.of_nat (length g) <= pi_max cfg)%N ->
  Msat B (findseeds_inwards cfg dg false (SR cap 0 None)) w
    (seeds_post (cl_max cfg < N.of_nat (length g))%N False
      (fun ss => exists ord, ordered_by (length g) (indegree g) ord /\ ss = greedy g [] ord) w).
Proof.
  intros H Hnd Hpi.
  apply (inwards_loop B dg g false (fun k ss so => exists b sv, so = Sort None (farr b sv) None None /\
     sorted_list (icf g) (length g) sv /\ k <= length g /\ ss = greedy g [] (take k sv))); [done| | | | |].
  - intros v Hv. pose proof (icf_le g v Hnd). lia.
  - intros k ss so (b & sv & _ & (Ls & _) & Hk & ->). etransitivity; [apply greedy_le_n|]. rewrite take_length. lia.
  - intros so w0 w1 (_ & _ & Hok & _). destruct (Hok eq_refl) as (_ & _ & sv & Hs & b & Hb). simpl in Hb. subst so.
    exists b, sv. splits; auto. lia.
  - intros b0 k ss so Hk (b & sv & -> & Hs & _ & ->). pose proof Hs as [Ls Hr].
    pose proof (sorted_list_ordered _ _ _ Hs) as [Hp _].
    destruct (lookup_lt_is_Some_2 sv k) as [v Hv]; [lia|]. exists v.
    split; [by apply aget_farr|]. split.
    { apply elem_of_list_lookup_2 in Hv. rewrite Hp, elem_of_seq in Hv. lia. }
    pose proof (greedy_take_S g sv k v Hv) as Hg.
    destruct (decide (addable g (greedy g [] (take k sv)) v)); simpl; (split; [done|]);
      exists b, sv; splits; auto.
  - intros ss so (b & sv & -> & Hs & _ & ->). exists sv. pose proof Hs as [Ls _]. rewrite <- Ls, firstn_all.
    split; [|done]. rewrite Ls. pose proof (sorted_list_ordered _ _ _ Hs) as [Hp Ho]. split; [done|].
    intros i j u v Hij Hu Hv. rewrite <- !icf_indegree by done. by eapply Ho.
Qed.

(** Orders that visit a smallest eligible vertex, on a prefix. *)
Definition vs_prefix (st : bool) (n : nat) (elig : list nat -> nat -> Prop) (key : list nat -> nat -> nat) (l : list nat) : Prop :=
  forall pre v post u, l = pre ++ v :: post -> elig pre v -> u < n -> u ∉ pre -> u <> v -> elig pre u ->
    key pre v <= key pre u /\ (st = true -> key pre v = key pre u -> v < u).

Lemma vs_nil st n elig key : vs_prefix st n elig key [].
Proof. intros pre v post u Hl. by destruct pre. Qed.

Lemma vs_snoc st n elig key l v : vs_prefix st n elig key l ->
  (elig l v -> forall u, u < n -> u ∉ l -> u <> v -> elig l u ->
     key l v <= key l u /\ (st = true -> key l v = key l u -> v < u)) ->
  vs_prefix st n elig key (l ++ [v]).
Proof.
  intros H Hv pre x post u Heq. destruct post as [|y post _] using rev_ind.
  - apply app_inj_tail in Heq as [<- <-]. auto.
  - rewrite app_comm_cons, app_assoc in Heq. apply app_inj_tail in Heq as [-> <-]. intros. by eapply H.
Qed.

Lemma vs_full st n elig key sv : sv ≡ₚ seq 0 n -> vs_prefix st n elig key sv -> visits st n elig key sv.
Proof.
  intros Hp H. assert (forall pre v post u, sv = pre ++ v :: post -> elig pre v -> u ∈ post -> elig pre u ->
    key pre v <= key pre u /\ (st = true -> key pre v = key pre u -> v < u)) as HH.
  2:{ unfold visits. destruct st; (split; [done|]); intros pre v post u Heq Hv Hu Hu';
        destruct (HH pre v post u Heq Hv Hu Hu') as [? Hs]; [|done].
      specialize (Hs eq_refl). lia. }
  intros pre v post u Heq Hv Hu Hu'.
  assert (NoDup sv) as Hnd by (rewrite Hp; apply NoDup_seq).
  rewrite Heq in Hnd. apply NoDup_app in Hnd as (N1 & N2 & N3). apply NoDup_cons in N3 as [N3 N4].
  eapply H; eauto.
  - assert (u ∈ sv) as Hs by (rewrite Heq; apply elem_of_app; right; by right). rewrite Hp, elem_of_seq in Hs. lia.
  - intros Hpre. eapply N2; eauto. by right.
  - by intros ->.
Qed.

(** Splitting off the arcs from the vertices of a list. *)
Lemma cnt_nodup y (l : list nat) : NoDup l -> cnt y l = if bool_decide (y ∈ l) then 1 else 0.
Proof.
  induction l as [|x l IH]; intros Hn; simpl; [done|]. apply NoDup_cons in Hn as [Hx Hn]. rewrite IH by done.
  destruct (decide (x = y)) as [->|].
  - rewrite (bool_decide_eq_false_2 (y ∈ l)), bool_decide_eq_true_2 by (done || by left). done.
  - simpl. repeat case_bool_decide; rewrite elem_of_cons in *; naive_solver.
Qed.

Lemma adj_nodup g v : Forall (@NoDup nat) g -> NoDup (adj g v).
Proof.
  intros H. unfold adj. destruct (g !! v) eqn:E; [|constructor]. rewrite Forall_lookup in H. eauto.
Qed.

Lemma cnt_concat_adj g y X : NoDup X -> Forall (fun x => x < length g) X -> Forall (@NoDup nat) g ->
  cnt y (concat (adj g <$> X)) = nb (fun x => bool_decide (x ∈ X /\ y ∈ adj g x)) (length g).
Proof.
  intros HX Hl Hg. induction X as [|x X IH].
  { symmetry. apply nb_none. intros z _. apply bool_decide_eq_false. rewrite elem_of_nil. tauto. }
  rewrite fmap_cons. cbn [concat].
  apply NoDup_cons in HX as [Hx HX]. inversion Hl as [|? ? Hxl Hl']; subst.
  rewrite cnt_app, IH by done. rewrite cnt_nodup by (by apply adj_nodup).
  rewrite (nb_add (fun z => bool_decide (z = x /\ y ∈ adj g z)) (fun z => bool_decide (z ∈ X /\ y ∈ adj g z))
    (fun z => bool_decide (z ∈ x :: X /\ y ∈ adj g z))).
  - f_equal. clear - Hxl. generalize (length g) Hxl. intros n Hn. induction n as [|n IH]; [lia|]. simpl.
    destruct (decide (n = x)) as [->|Hne].
    + rewrite nb_none.
      * simpl. repeat case_bool_decide; tauto.
      * intros z Hz. apply bool_decide_eq_false. intros [? _]. lia.
    + rewrite <- IH by lia. rewrite (bool_decide_eq_false_2 (n = x /\ _)) by tauto. lia.
  - intros z _. case_bool_decide as H1; case_bool_decide as H2; case_bool_decide as H3;
      rewrite ?elem_of_cons in *; naive_solver.
Qed.

Lemma arcs_split g y (act act' : nat -> bool) X : NoDup X -> Forall (fun x => x < length g) X -> Forall (@NoDup nat) g ->
  (forall x, y ∈ adj g x -> (act x = true <-> act' x = true \/ x ∈ X)) ->
  (forall x, y ∈ adj g x -> act' x = true -> x ∉ X) ->
  arcs_from act g y = arcs_from act' g y + cnt y (concat (adj g <$> X)).
Proof.
  intros HX Hl Hg H1 H2. rewrite cnt_concat_adj by done. unfold arcs_from. rewrite !nb_filter. apply nb_add.
  intros x _. case_bool_decide as A; case_bool_decide as C; case_bool_decide as D; try done;
    destruct (decide (y ∈ adj g x)) as [Hy|]; try tauto; specialize (H1 x Hy); specialize (H2 x Hy); tauto.
Qed.

Lemma dec_ic_app C l1 l2 ic : dec_ic C l2 (dec_ic C l1 ic) = dec_ic C (l1 ++ l2) ic.
Proof.
  apply list_eq. intros i. rewrite !dec_ic_lookup. destruct (ic !! i); simpl; [|done]. f_equal.
  destruct (C i); [rewrite cnt_app|]; lia.
Qed.

Definition cand (g : list (list nat)) (ss pre : list nat) (y : nat) : bool :=
  bool_decide (~ covered g ss y /\ y ∉ pre /\ adj g y <> []).

Lemma sst_pos n k pre bs ic so y : sst cfg n k pre bs ic so -> y < n ->
  exists p, aget (so_vi so) y = Ok p /\ (k < p <-> y ∉ pre).
Proof.
  intros (sv & vi & bi & -> & Hs & _ & <-) Hy.
  destruct (lookup_lt_is_Some_2 vi y) as [p Hp]; [by rewrite (si_vi _ _ _ _ _ _ Hs)|].
  exists p. split; [by apply aget_farr|]. by eapply pos_pre.
Qed.

Lemma can_dec_eq dg g b ss n k pre bs ic so y : dg_rep cfg dg g -> n = length g -> sst cfg n k pre bs ic so -> y < n ->
  can_decrease dg (farr b (marks_of g ss)) so k y = Ok (cand g ss pre y).
Proof.
  intros H -> Hs Hy. unfold can_decrease, cand. rewrite (aget_farr _ _ _ _ (marks_lookup g ss y Hy)). cbn [Rbind].
  case_bool_decide as Hc. { rewrite bool_decide_eq_false_2 by tauto. done. }
  destruct (sst_pos _ _ _ _ _ _ _ Hs Hy) as (p & -> & Hp). cbn [Rbind].
  destruct (decide (k < p)) as [Hk|Hk]; [|rewrite bool_decide_eq_false_2 by tauto; done].
  rewrite !(rep_tail_get cfg dg g) by (done || lia). cbn [Rbind]. f_equal. apply bool_decide_ext.
  pose proof (offs_eq_adj g y Hy). tauto.
Qed.

Lemma upd_skip_sat B dg g b ss n k v pre bs ic so : dg_rep cfg dg g -> n = length g -> v < n ->
  sst cfg n k pre bs ic so ->
  (forall y c, cand g ss pre y = true -> ic !! y = Some c -> cnt y (adj g v) <= c) ->
  Rsat B (inwards_update_skip cfg dg (farr b (marks_of g ss)) k v so) (sst cfg n k pre bs (dec_ic (cand g ss pre) (adj g v) ic)).
Proof.
  intros H -> Hv Hs Hc. unfold inwards_update_skip.
  rewrite (for_arcs_fold cfg dg g v (adj g v)) by (done || by apply adj_lookup).
  apply dec_fold; [| |done|done].
  - intros y ic' so' Hy Hs'. rewrite (can_dec_eq dg g b ss _ k pre bs ic' so' y H eq_refl Hs'); [done|].
    by eapply adj_lt.
  - intros y Hy Hcy. apply bool_decide_eq_true in Hcy as (? & ? & ?). split; [|done]. by eapply adj_lt.
Qed.

Lemma upd_seed_sat B dg g b ss n k v pre bs ic so : dg_rep cfg dg g -> n = length g -> v < n ->
  sst cfg n k pre bs ic so ->
  (forall y c, cand g ss pre y = true -> ic !! y = Some c -> cnt y (concat (adj g <$> filter (fun x => x ∉ pre) (adj g v))) <= c) ->
  Rsat B (inwards_update_seed cfg dg (farr b (marks_of g ss)) k v so)
    (sst cfg n k pre bs (dec_ic (cand g ss pre) (concat (adj g <$> filter (fun x => x ∉ pre) (adj g v))) ic)).
Proof.
  intros H -> Hv Hs Hc. unfold inwards_update_seed.
  rewrite (for_arcs_fold cfg dg g v (adj g v)) by (done || by apply adj_lookup).
  apply (foldR_sat B (fun l so => sst cfg (length g) k pre bs (dec_ic (cand g ss pre) (concat (adj g <$> filter (fun x => x ∉ pre) l)) ic) so)).
  { simpl. replace (dec_ic _ [] ic) with ic; [done|]. apply list_eq. intros i. rewrite dec_ic_lookup.
    destruct (ic !! i); simpl; [|done]. f_equal. destruct (cand g ss pre i); lia. }
  intros l x post so' Heq Hs'.
  assert (x ∈ adj g v) as Hx by (rewrite Heq; apply elem_of_app; right; left).
  destruct (adj_lt _ _ _ _ H Hx) as [_ Hxn].
  destruct (sst_pos _ _ _ _ _ _ _ Hs' Hxn) as (p & Ep & Hp). rewrite Ep. cbn [Rbind].
  rewrite filter_app, filter_cons, fmap_app, concat_app.
  destruct (decide (k < p)) as [Hk|Hk].
  - rewrite decide_True by tauto. csimpl. rewrite app_nil_r, <- dec_ic_app.
    rewrite (for_arcs_fold cfg dg g x (adj g x)) by (done || by apply adj_lookup).
    apply dec_fold; [| |done|].
    + intros y ic' so1 Hy Hs1. rewrite (can_dec_eq dg g b ss _ k pre bs ic' so1 y H eq_refl Hs1); [done|].
      by eapply adj_lt.
    + intros y Hy Hcy. apply bool_decide_eq_true in Hcy as (? & ? & ?). split; [|done]. by eapply adj_lt.
    + intros y c Hcy Hyc. rewrite dec_ic_lookup in Hyc. destruct (ic !! y) as [c0|] eqn:Ey; [|done]. simpl in Hyc.
      rewrite Hcy in Hyc. specialize (Hc y c0 Hcy Ey). rewrite Heq, filter_app, filter_cons, decide_True in Hc by tauto.
      rewrite fmap_app, concat_app in Hc. csimpl in Hc. rewrite !cnt_app in Hc. injection Hyc as <-. lia.
  - rewrite decide_False by tauto. simpl. by rewrite app_nil_r.
Qed.

Definition inw_si (g : list (list nat)) (k : nat) (ss : list nat) (so : sort_result) : Prop :=
  exists bs ic sv vi bi, so = mk_sort bs.1.1.1 bs.1.1.2 bs.1.2 bs.2 ic sv vi bi /\
    sort_inv (length g) k ic sv vi bi /\ tied (stable_seeds cfg) k ic sv /\ k <= length g /\ ss = greedy g [] (take k sv) /\
    vs_prefix (stable_seeds cfg) (length g) (inwards_elig g) (inwards_key g) (take k sv) /\
    (forall y, y < length g -> y ∉ take k sv -> inwards_elig g (take k sv) y ->
       ic !! y = Some (inwards_key g (take k sv) y)).

Lemma inw_next g k v bs ic ic' sv vi bi so' (C : nat -> bool) l :
  sort_inv (length g) k ic sv vi bi -> tied (stable_seeds cfg) k ic sv -> k < length g -> sv !! k = Some v ->
  vs_prefix (stable_seeds cfg) (length g) (inwards_elig g) (inwards_key g) (take k sv) ->
  (forall y, y < length g -> y ∉ take k sv -> inwards_elig g (take k sv) y ->
       ic !! y = Some (inwards_key g (take k sv) y)) ->
  sst cfg (length g) k (take (S k) sv) bs ic' so' -> ic' = dec_ic C l ic ->
  (forall y, y < length g -> y ∉ take (S k) sv -> inwards_elig g (take (S k) sv) y ->
     inwards_elig g (take k sv) y /\
     inwards_key g (take k sv) y - (if C y then cnt y l else 0) = inwards_key g (take (S k) sv) y) ->
  forall b1 b2 b3 b4, (b1, b2, b3, b4) = bs ->
  so_blocks so' = [b1; b2; b3; b4] /\ inw_si g (S k) (greedy g [] (take (S k) sv)) so'.
Proof.
  intros Hs Hti Hk Hv Hvs Hic (sv' & vi' & bi' & -> & Hs' & Hti' & Ht) -> Hkey b1 b2 b3 b4 <-.
  split; [done|]. rewrite Nat.add_1_r in Ht, Hs', Hti'.
  exists (b1, b2, b3, b4), (dec_ic C l ic), sv', vi', bi'. rewrite Ht. split; [done|]. split; [done|]. split; [done|]. split; [lia|].
  split; [done|]. split.
  - rewrite (take_S_r _ _ v) by done. apply vs_snoc; [done|]. intros Ev u Hu Hup Huv Eu.
    assert (v ∉ take k sv) as Hvp.
    { intros (i & Hi)%elem_of_list_lookup. apply lookup_take_Some in Hi as [Hi Hl].
      apply (si_bij _ _ _ _ _ _ Hs) in Hi, Hv. assert (k = i) by congruence. lia. }
    destruct (si_sv_lt _ _ _ _ _ _ _ _ Hs Hv) as [_ Hvn].
    destruct (lookup_lt_is_Some_2 vi u) as [q Hq]; [by rewrite (si_vi _ _ _ _ _ _ Hs)|].
    assert (k <= q) as Hkq.
    { destruct (decide (k <= q)); [done|]. exfalso. apply Hup. apply elem_of_list_lookup. exists q.
      rewrite lookup_take by lia. by apply (si_bij _ _ _ _ _ _ Hs). }
    apply (si_bij _ _ _ _ _ _ Hs) in Hq. assert (k <> q) by congruence.
    split; [eapply (si_sorted _ _ _ _ _ _ k q v u _ _ Hs); eauto; lia|].
    intros Hst E. apply (Hti Hst k q v u (inwards_key g (take k sv) v)); auto; [lia|]. rewrite E. auto.
  - intros y Hy Hyp Hye. destruct (Hkey y Hy Hyp Hye) as [He Hk'].
    assert (y ∉ take k sv) as Hyk. { intros Hi. apply Hyp. rewrite (take_S_r _ _ v) by done. apply elem_of_app. by left. }
    rewrite dec_ic_lookup, (Hic y Hy Hyk He). simpl. by f_equal.
Qed.

Lemma Msat_inwards_updating B dg g cap w : dg_rep cfg dg g -> Forall (@NoDup nat) g -> (N.of_nat (length g) <= pi_max cfg)%N ->
  Msat B (findseeds_inwards cfg dg true (SR cap 0 None)) w
    (seeds_post (cl_max cfg < N.of_nat (length g))%N False
      (fun ss => exists ord, visits (stable_seeds cfg) (length g) (inwards_elig g) (inwards_key g) ord /\ ss = greedy g [] ord) w).
Proof.
  intros H Hnd Hpi. apply (inwards_loop B dg g true (inw_si g)); [done| | | | |].
  - intros v Hv. pose proof (icf_le g v Hnd). lia.
  - intros k ss so (bs & ic & sv & vi & bi & -> & Hs & _ & Hk & -> & _). etransitivity; [apply greedy_le_n|]. rewrite take_length. lia.
  - intros so w0 w1 (_ & _ & Hok & _). destruct (Hok eq_refl) as (_ & _ & sv & Hsl & b1 & b2 & b3 & b4 & ic & vi & bi & Hb & Hs & Hic).
    simpl in Hb. subst so. exists (b1, b2, b3, b4), ic, sv, vi, bi. rewrite take_0. simpl.
    splits; auto; [by eapply sorted_list_tied|lia|apply vs_nil|]. intros y Hy _ _. rewrite Hic, icf_indegree by done.  done.
  - intros b0 k ss so Hk (bs & ic & sv & vi & bi & -> & Hs & Hti & _ & Hss & Hvs & Hic).
    destruct (lookup_lt_is_Some_2 sv k) as [v Hv]; [by rewrite (si_sv _ _ _ _ _ _ Hs)|]. exists v.
    split; [by apply aget_farr|]. destruct (si_sv_lt _ _ _ _ _ _ _ _ Hs Hv) as [_ Hvn]. split; [done|].
    assert (v ∉ take k sv) as Hvp.
    { intros (i & Hi)%elem_of_list_lookup. apply lookup_take_Some in Hi as [Hi Hl].
      apply (si_bij _ _ _ _ _ _ Hs) in Hi, Hv. assert (k = i) by congruence. lia. }
    pose proof (greedy_take_S g sv k v Hv) as Hg. rewrite <- Hss in Hg.
    set (pre' := take (S k) sv) in *.
    assert (forall x, x ∈ pre' <-> x ∈ take k sv \/ x = v) as Hpre'.
    { intros x. unfold pre'. rewrite (take_S_r _ _ v) by done. by rewrite elem_of_app, elem_of_list_singleton. }
    destruct bs as [[[b1 b2] b3] b4]. simpl. fold (mk_sort b1 b2 b3 b4 ic sv vi bi).
    assert (sst cfg (length g) k pre' (b1, b2, b3, b4) ic (mk_sort b1 b2 b3 b4 ic sv vi bi)) as Hsst.
    { exists sv, vi, bi. split; [done|]. unfold pre'. rewrite Nat.add_1_r. split; [eapply si_mono; [|done]; lia|].
      split; [|done]. eapply tied_mono; [|done]. lia. }
    destruct (decide (addable g ss v)) as [Ha|Ha].
    + set (X := filter (fun x => x ∉ pre') (adj g v)). set (C := cand g (ss ++ [v]) pre').
      assert (forall y, y < length g -> C y = true -> inwards_elig g (take k sv) y /\
         inwards_key g (take k sv) y = inwards_key g pre' y + cnt y (concat (adj g <$> X))) as Hkey.
      { intros y Hy Hc. apply bool_decide_eq_true in Hc as (C1 & C2 & C3).
        rewrite covered_app, covered_single in C1. unfold inwards_elig. rewrite <- Hss. split; [tauto|].
        unfold inwards_key. rewrite Hg, <- Hss. apply arcs_split; [| |done| |].
        - apply NoDup_filter. by apply adj_nodup.
        - apply Forall_forall. intros x Hx. apply elem_of_list_filter in Hx as [_ Hx]. by eapply adj_lt.
        - intros x Hx. rewrite !bool_decide_eq_true. unfold X. rewrite elem_of_list_filter, covered_app, covered_single, Hpre'.
          assert (x <> v). { intros ->. apply C1. right. unfold closed. by right. }
          unfold closed at 1. rewrite elem_of_cons.
          destruct Ha as [_ Ha]. rewrite Forall_forall in Ha. split; [|intros [?|[? Hxv]]; [tauto|]].
          + intros [? ?]. destruct (decide (x ∈ adj g v)); [right|left]; tauto.
          + split; [tauto|]. apply Ha. by right.
        - intros x Hx Hact Hx'. apply elem_of_list_filter in Hx' as [_ Hx']. apply bool_decide_eq_true in Hact as [_ Hact].
          apply Hact. rewrite covered_app, covered_single. right. by right. }
      eapply Rsat_mono.
      * apply (upd_seed_sat B dg g b0 (ss ++ [v]) (length g) k v pre' (b1, b2, b3, b4)); [done|done|done|exact Hsst|].
        intros y c Hc Hyc. assert (y < length g) as Hy. { rewrite <- (si_ic _ _ _ _ _ _ Hs). by eapply lookup_lt_Some. }
        destruct (Hkey y Hy Hc) as [He Hk']. apply bool_decide_eq_true in Hc as (_ & C2 & _). rewrite Hpre' in C2.
        rewrite (Hic y Hy ltac:(tauto) He) in Hyc. injection Hyc as <-. fold X. lia.
      * intros so' Hs'. rewrite <- Hg. eapply (inw_next g k v (b1, b2, b3, b4) ic _ sv vi bi so' C (concat (adj g <$> X))); eauto.
        fold pre'. intros y Hy Hyp [Hy1 Hy2]. rewrite Hg in Hy2.
        assert (C y = true) as Hc by (apply bool_decide_eq_true; tauto). destruct (Hkey y Hy Hc) as [He Hk'].
        split; [done|]. rewrite Hc. lia.
    + unfold inw_skip. rewrite (aget_farr _ _ _ _ (marks_lookup g ss v Hvn)). cbn [Rbind].
      set (C := cand g ss pre').
      case_bool_decide as Hcov.
      * simpl. rewrite <- Hg. eapply (inw_next g k v (b1, b2, b3, b4) ic ic sv vi bi _ C []); eauto.
        { apply list_eq. intros i. rewrite dec_ic_lookup. destruct (ic !! i); simpl; [|done]. f_equal. destruct (C i); lia. }
        fold pre'. intros y Hy Hyp [Hy1 Hy2]. rewrite Hg in Hy2. unfold inwards_elig. rewrite <- Hss. split; [done|].
        simpl. replace (if C y then 0 else 0) with 0 by (by destruct (C y)). rewrite Nat.sub_0_r.
        unfold inwards_key. rewrite Hg, <- Hss. unfold arcs_from. f_equal. apply list_filter_iff. intros x.
        rewrite !bool_decide_eq_true, Hpre'. split; intros [[? ?] ?]; split; auto; split; auto; try tauto.
        intros [?| ->]; tauto.
      * assert (forall y, y < length g -> C y = true -> inwards_elig g (take k sv) y /\
           inwards_key g (take k sv) y = inwards_key g pre' y + cnt y (adj g v)) as Hkey.
        { intros y Hy Hc. apply bool_decide_eq_true in Hc as (C1 & C2 & C3).
          unfold inwards_elig. rewrite <- Hss. split; [tauto|].
          unfold inwards_key. rewrite Hg, <- Hss. replace (adj g v) with (concat (adj g <$> [v])) by (csimpl; by rewrite app_nil_r).
          apply arcs_split; [apply NoDup_singleton|by constructor|done| |].
          - intros x Hx. rewrite !bool_decide_eq_true, Hpre', elem_of_list_singleton.
            split; [|intros [[? ?]| ->]; tauto]. intros [? ?]. destruct (decide (x = v)); tauto.
          - intros x Hx. rewrite bool_decide_eq_true, Hpre', elem_of_list_singleton. tauto. }
        eapply Rsat_mono.
        -- apply (upd_skip_sat B dg g b0 ss (length g) k v pre' (b1, b2, b3, b4)); [done|done|done|exact Hsst|].
           intros y c Hc Hyc. assert (y < length g) as Hy. { rewrite <- (si_ic _ _ _ _ _ _ Hs). by eapply lookup_lt_Some. }
           destruct (Hkey y Hy Hc) as [He Hk']. apply bool_decide_eq_true in Hc as (_ & C2 & _). rewrite Hpre' in C2.
           rewrite (Hic y Hy ltac:(tauto) He) in Hyc. injection Hyc as <-. lia.
        -- intros so' Hs'. rewrite <- Hg. eapply (inw_next g k v (b1, b2, b3, b4) ic _ sv vi bi so' C (adj g v)); eauto.
           fold pre'. intros y Hy Hyp [Hy1 Hy2]. rewrite Hg in Hy2.
           assert (C y = true) as Hc by (apply bool_decide_eq_true; tauto). destruct (Hkey y Hy Hc) as [He Hk'].
           split; [done|]. rewrite Hc. lia.
  - intros ss so (bs & ic & sv & vi & bi & -> & Hs & _ & _ & -> & Hvs & _). exists sv.
    rewrite <- (si_sv _ _ _ _ _ _ Hs), firstn_all in *. split; [|done]. apply vs_full; [|done].
    rewrite (si_sv _ _ _ _ _ _ Hs). by eapply si_perm.
Qed.
End Proof.
