(** Nearest neighbour graphs: construction from search results, self matches,
    and the graph for a size constraint. *)

From stdpp Require Import prelude list sorting.
From Coq Require Import NArith ZArith.
From Verif Require Import Base World Mem Digraph DigraphRep DigraphOps Float Spi Options Arrays GraphSpec AssignSpec Seeds SeedsExcl Nng.

Lemma Msat_weaken {A} B (m : M A) w Q : Msat none m w Q -> Msat B m w Q.
Proof. unfold Msat. destruct (m w) as [[a w']|]; simpl; [auto|intros []]. Qed.

(** The provider's functions fail only when an allocation fails. *)
Record provider_reliable (P : provider) (V : pview P) (ds : p_ds P) (n : nat) : Prop := {
  rel_nn_init : forall w s, search_set n s -> no_fail w ->
    Msat anyub (p_nn_init P ds s) w (fun r _ => r <> None);
  rel_nn_search : forall w o q k rad, nn_good V o -> query_list n q -> 0 < k -> k <= length (nn_set V o) ->
    no_fail w -> Msat anyub (p_nn_search P o q k rad) w (fun r _ => r <> None);
  rel_nn_close : forall w o, nn_good V o -> no_fail w -> Msat anyub (p_nn_close P o) w (fun r _ => r = true);
  rel_rows : forall w q c, query_list n q -> query_list n c -> no_fail w ->
    Msat anyub (p_rows P ds q c) w (fun r _ => r <> None);
  rel_matrix : forall w q, query_list n q -> 1 < q.1 -> no_fail w ->
    Msat anyub (p_matrix P ds q) w (fun r _ => r <> None);
  rel_mx_init : forall w s, search_set n s -> no_fail w ->
    Msat anyub (p_mx_init P ds s) w (fun r _ => r <> None);
  rel_mx_get : forall w o q, mx_good V o -> query_list n q -> no_fail w ->
    Msat anyub (p_mx_get P o q) w (fun r _ => r <> None);
  rel_mx_close : forall w o, mx_good V o -> no_fail w -> Msat anyub (p_mx_close P o) w (fun r _ => r = true)
}.

(** ** Array arguments *)

(** [q] is an array argument of length [len] with elements [Q]. *)
Definition argcells (q : option (list (option nat))) (len : nat) (Q : list nat) : Prop :=
  match q with
  | None => Q = seq 0 len
  | Some c => filled c Q /\ length Q = len
  end.

Lemma argcells_length q len Q : argcells q len Q -> length Q = len.
Proof. destruct q; simpl; [tauto|]. intros ->. apply seq_length. Qed.

Lemma read_idx_arg B q len Q : argcells q len Q ->
  Rsat B (read_idx len q) (fun r => r.1 = len /\ il_list r = Q /\ r.2 = match q with None => None | Some _ => Some Q end).
Proof.
  destruct q as [c|]; simpl; [|by intros ->]. intros [Hf Hl]. apply Rsat_bind.
  apply (Rsat_mono _ _ (fun l => l = Q)); [|intros l ->; done].
  apply (forR_sat0 B (fun i l => l = take i Q)).
  - done.
  - intros i l Hi ->. destruct (lookup_lt_is_Some_2 Q i) as [x Hx]; [lia|].
    rewrite (cget_ok _ _ x) by (by eapply filled_lookup). simpl. by rewrite (take_S_r _ _ x).
  - intros l ->. by rewrite <- Hl, firstn_all.
Qed.

Lemma argcells_ucells p n : (match p with None => True | Some l => n <= length l end) ->
  argcells (ucells p) n (match p with None => seq 0 n | Some l => take n l end).
Proof.
  destruct p as [l|]; simpl; [|done]. intros Hl. split; [|rewrite take_length; lia].
  exists (Some <$> drop n l). by rewrite <- fmap_app, take_drop.
Qed.

Lemma argcells_farr b l : argcells (acells (farr b l)) (length l) l.
Proof. simpl. split; [|done]. exists []. by rewrite app_nil_r. Qed.

(** ** Provider calls *)

Section Calls.
Context (cfg : config) (P : provider) (V : pview P) (ds : p_ds P) (n : nat) (G : geometry) (D : dist_fun).
Hypothesis (HP : provider_ok P V ds n G D).

(** No reason for the provider to fail in [w]. *)
Notation solid w := (no_fail w /\ provider_reliable P V ds n).

Lemma solid_wle w w' : wle w w' -> solid w -> solid w'.
Proof. intros L [F Hr]. split; [|done]. by eapply no_fail_wle. Qed.

Lemma Msat_nn_init B len s S w : argcells s len S -> S <> [] -> Forall (fun x => x < n) S -> NoDup S ->
  Msat B (nn_init P ds len s) w (fun r w' =>
    wle w w' /\ w_err w' = w_err w /\
    match r with
    | None => own w' [] w /\ ~ solid w
    | Some o => own w' (nn_blk V o) w /\ nn_good V o /\ nn_set V o = S
    end).
Proof.
  intros Hs Hne Hlt Hnd. unfold nn_init. apply Msat_bind, Msat_lift.
  eapply Rsat_mono; [by apply read_idx_arg|]. intros r (H1 & H2 & _).
  assert (search_set n r) as Hset.
  { unfold search_set. rewrite H2, H1. splits; auto. by eapply argcells_length. }
  pose proof (pk_nn_init _ _ _ _ _ _ HP w r Hset) as Hi.
  unfold Msat in *. destruct (p_nn_init P ds r w) as [[o w']|u] eqn:E; [|by destruct Hi]. simpl in *.
  destruct o as [o|].
  - destruct Hi as ((L & O & Er) & Hg & Hns). rewrite H2 in Hns. splits; auto.
  - destruct Hi as (L & O & Er). splits; auto. intros [F Hr].
    pose proof (rel_nn_init _ _ _ _ Hr w r Hset F) as Hc. unfold Msat in Hc. rewrite E in Hc. by apply Hc.
Qed.

Lemma Msat_close B o w : nn_good V o -> (forall x, cnt x (nn_blk V o) <= cnt x (w_live w)) ->
  Msat B (p_nn_close P o) w (fun r w' =>
    wle w w' /\ w_err w' = w_err w /\ (forall x, cnt x (w_live w) = cnt x (nn_blk V o) + cnt x (w_live w')) /\
    (r = false -> ~ solid w)).
Proof.
  intros Hg Hb. pose proof (pk_nn_close _ _ _ _ _ _ HP w o Hg Hb) as Hc.
  unfold Msat in *. destruct (p_nn_close P o w) as [[r w']|u] eqn:E; [|by destruct Hc]. simpl in *.
  destruct Hc as (L & Er & O). splits; auto. intros -> [F Hr].
  pose proof (rel_nn_close _ _ _ _ Hr w o Hg F) as Hc. unfold Msat in Hc. by rewrite E in Hc.
Qed.

Lemma search_ok_lengths S Q k rad ok nn : search_ok G S Q k rad ok nn -> length nn = length ok * k /\ length ok <= length Q.
Proof.
  intros (-> & cs & -> & Hf). split; [|apply filter_length].
  induction Hf as [|q c ok cs [H1 _] _ IH]; simpl; [done|]. rewrite app_length, IH, (nst_len _ _ _ _ _ H1). lia.
Qed.

(** Result of writing to a buffer of the caller. *)
Definition written {A} (xs : list A) (p p' : option (arr A)) : Prop :=
  exists b c c', p = Some (Arr b c) /\ p' = Some (Arr b c') /\ filled c' xs /\ length c' = length c.

Lemma write_out_sat {A} B cap (xs : list A) b c : cap <= length c -> length xs <= cap ->
  Rsat B (write_out cap xs (Some (Arr b c))) (written xs (Some (Arr b c))).
Proof.
  intros H1 H2. unfold write_out. simpl. rewrite decide_True by done. simpl. eexists b, c, _. split; [done|]. split; [done|].
  split; [by eexists|]. rewrite !app_length, fmap_length, drop_length. unfold fresh. rewrite replicate_length. lia.
Qed.

Lemma Msat_nn_search B o lenq q Q k rad outq b c w :
  nn_good V o -> (forall x, cnt x (nn_blk V o) <= cnt x (w_live w)) ->
  argcells q lenq Q -> Q <> [] -> Forall (fun x => x < n) Q ->
  0 < k -> k <= length (nn_set V o) ->
  (match outq with Some ob => exists b' c', ob = Some (Arr b' c') /\ lenq <= length c' | None => True end) ->
  lenq * k <= length c ->
  Msat B (nn_search P o lenq q k rad outq (Some (Arr b c))) w (fun r w' =>
    wle w w' /\ own w' [] w /\ w_err w' = w_err w /\
    match r with
    | None => ~ solid w
    | Some (num, outq', outnn') => exists ok nn, search_ok G (nn_set V o) Q k rad ok nn /\ num = length ok /\
        written nn (Some (Arr b c)) outnn' /\
        match outq, outq' with
        | None, None => True
        | Some p, Some p' => written ok p p'
        | _, _ => False
        end
    end).
Proof.
  intros Hg Hb Hq Hne Hlt Hk Hks Hout Hc. unfold nn_search. apply Msat_bind, Msat_lift.
  eapply Rsat_mono; [by apply read_idx_arg|]. intros qs (H1 & H2 & _).
  pose proof (argcells_length _ _ _ Hq) as HlQ.
  assert (query_list n qs) as Hql. { unfold query_list. rewrite H2, H1. auto. }
  pose proof (pk_nn_search _ _ _ _ _ _ HP w o qs k rad Hg Hql Hk Hks Hb) as Hs.
  apply Msat_bind. unfold Msat at 1. unfold Msat at 1 in Hs. destruct (p_nn_search P o qs k rad w) as [[r w']|u] eqn:E; [|by destruct Hs].
  simpl in *. destruct Hs as [(L & O & Er) Hs]. destruct r as [[ok nn]|].
  2:{ apply Msat_ret. splits; auto. intros [F Hr].
      pose proof (rel_nn_search _ _ _ _ Hr w o qs k rad Hg Hql Hk Hks F) as Hx. unfold Msat in Hx. rewrite E in Hx. by apply Hx. }
  rewrite H2 in Hs. destruct (search_ok_lengths _ _ _ _ _ _ Hs) as [Hl1 Hl2].
  apply Msat_bind, Msat_lift. eapply Rsat_mono; [apply write_out_sat; nia|]. intros onn Hw.
  apply Msat_bind, Msat_lift. destruct outq as [ob|].
  - destruct Hout as (b' & c' & -> & Hc'). apply Rsat_bind. eapply Rsat_mono; [apply write_out_sat; lia|].
    intros ob' Hw'. simpl. apply Msat_ret. splits; auto. exists ok, nn. auto.
  - simpl. apply Msat_ret. splits; auto. exists ok, nn. auto.
Qed.
End Calls.

(** ** Rows of a graph built from a search *)

Definition lookup_row (l : list (nat * list nat)) (v : nat) : list nat :=
  match list_find (fun p => p.1 = v) l with Some (_, p) => p.2 | None => [] end.
Definition search_rows (n : nat) (l : list (nat * list nat)) : list (list nat) := lookup_row l <$> seq 0 n.

Lemma lookup_row_cons q c l v : lookup_row ((q, c) :: l) v = if decide (q = v) then c else lookup_row l v.
Proof.
  unfold lookup_row. simpl. destruct (decide (q = v)) as [->|Hn].
  - done.
  - destruct (list_find (fun p : nat * list nat => p.1 = v) l) as [[? ?]|]; done.
Qed.

Lemma lookup_row_none l v : v ∉ l.*1 -> lookup_row l v = [].
Proof.
  induction l as [|[q c] l IH]; intros H; [done|]. csimpl in H. rewrite not_elem_of_cons in H.
  rewrite lookup_row_cons, decide_False by (intros ->; tauto). tauto.
Qed.

Lemma lookup_row_in l j v c : NoDup l.*1 -> l !! j = Some (v, c) -> lookup_row l v = c.
Proof.
  revert j. induction l as [|[q d] l IH]; intros j Hnd Hj; [done|]. csimpl in Hnd. inversion_clear Hnd as [|? ? Hq Hnd'].
  rewrite lookup_row_cons. destruct j as [|j]; simpl in Hj.
  - injection Hj as -> ->. by rewrite decide_True.
  - rewrite decide_False; [by eapply IH|]. intros ->. apply Hq. apply elem_of_list_fmap.
    exists (v, c). split; [done|]. by eapply elem_of_list_lookup_2.
Qed.

Lemma search_rows_length n l : length (search_rows n l) = n.
Proof. unfold search_rows. by rewrite fmap_length, seq_length. Qed.

Lemma search_rows_lookup n l v : v < n -> search_rows n l !! v = Some (lookup_row l v).
Proof. intros H. unfold search_rows. rewrite list_lookup_fmap, lookup_seq_lt by done. done. Qed.

Lemma search_rows_adj n l v : v < n -> adj (search_rows n l) v = lookup_row l v.
Proof. intros H. unfold adj. by rewrite search_rows_lookup. Qed.

Lemma sorted_NoDup l : StronglySorted lt l -> NoDup l.
Proof.
  induction 1 as [|x l Hs IH Hf]; constructor; [|done]. intros Hx. rewrite Forall_forall in Hf.
  specialize (Hf x Hx). lia.
Qed.

Lemma sorted_lookup l i j x y : StronglySorted lt l -> l !! i = Some x -> l !! j = Some y -> i < j -> x < y.
Proof.
  intros Hs. revert i j. induction Hs as [|z l Hs IH Hf]; intros [|i] [|j] Hi Hj Hij; simpl in *; try done; try lia.
  - injection Hi as ->. eapply Forall_lookup_1 in Hf; [|exact Hj]. done.
  - eapply IH; eauto. lia.
Qed.

Lemma sorted_filter (P : nat -> Prop) `{forall x, Decision (P x)} l : StronglySorted lt l -> StronglySorted lt (filter P l).
Proof.
  induction 1 as [|z l Hs IH Hf]; [constructor|]. rewrite filter_cons. destruct (decide (P z)); [|done]. constructor; [done|].
  rewrite Forall_forall in *. intros x [_ Hx]%elem_of_list_filter. auto.
Qed.

Lemma seq_sorted a m : StronglySorted lt (seq a m).
Proof.
  revert a. induction m as [|m IH]; intros a; simpl; constructor; [done|]. apply Forall_forall. intros x Hx%elem_of_seq. lia.
Qed.

Lemma list_filter_all {A} (P : A -> Prop) `{forall x, Decision (P x)} l : Forall P l -> filter P l = l.
Proof. induction 1 as [|x l Hx _ IH]; [done|]. rewrite filter_cons_True by done. by rewrite IH. Qed.

Lemma concat_search_rows a m l : StronglySorted lt l.*1 -> Forall (fun q => a <= q < a + m) l.*1 ->
  concat (lookup_row l <$> seq a m) = concat l.*2.
Proof.
  revert a l. induction m as [|m IH]; intros a l Hs Hf.
  - destruct l as [|p l]; [done|]. csimpl in Hf. inversion_clear Hf. lia.
  - simpl. destruct l as [|[q c] l].
    + clear. unfold lookup_row at 1. simpl. generalize (S a). induction m as [|m IH]; intros b; [done|]. simpl. apply IH.
    + csimpl in Hs. apply StronglySorted_inv in Hs as [Hs Hq]. csimpl in Hf. inversion_clear Hf as [|? ? H1 H2].
      rewrite lookup_row_cons. destruct (decide (q = a)) as [->|Hne].
      * csimpl. f_equal. rewrite <- (IH (S a) l); [|done|].
        -- f_equal. apply list_fmap_ext. intros i v Hv. apply lookup_seq in Hv as [-> _]. rewrite lookup_row_cons, decide_False by lia. done.
        -- rewrite Forall_forall in *. intros x Hx. specialize (Hq x Hx). specialize (H2 x Hx). simpl in *. lia.
      * rewrite lookup_row_none.
        -- change (concat (lookup_row ((q, c) :: l) <$> seq (S a) m) = concat ((q, c) :: l).*2). apply IH.
           ++ csimpl. by constructor.
           ++ csimpl. constructor; [lia|]. rewrite Forall_forall in *. intros x Hx. specialize (Hq x Hx). specialize (H2 x Hx). simpl in *. lia.
        -- intros Ha. rewrite Forall_forall in Hq. specialize (Hq a Ha). lia.
Qed.

(** ** Writing the tails *)

(** The cells below [m] are the offsets. *)
Definition tails_upto (rows : list (list nat)) (m : nat) (c : list (option nat)) : Prop :=
  length c = S (length rows) /\ forall k, k < m -> c !! k = Some (Some (offs rows k)).

Lemma tails_upto_step rows m c r : tails_upto rows (S m) c -> rows !! m = Some r ->
  tails_upto rows (S (S m)) (<[S m := Some (offs rows m + length r)]> c).
Proof.
  intros [Hl Hk] Hr. split; [by rewrite insert_length|]. intros k Hlt. destruct (decide (k = S m)) as [->|Hne].
  - rewrite list_lookup_insert; [|apply lookup_lt_Some in Hr; lia]. do 2 f_equal. by rewrite (offs_S _ _ r).
  - rewrite list_lookup_insert_ne by done. apply Hk. lia.
Qed.

Lemma copy_prev_sat B rows cnt m b c : tails_upto rows (S m) c -> m + cnt <= length rows ->
  (forall v, m <= v < m + cnt -> rows !! v = Some []) ->
  Rsat B (copy_prev cnt (S m) (Some (Arr b c))) (fun t => exists c', t = Some (Arr b c') /\ tails_upto rows (S (m + cnt)) c').
Proof.
  intros Hc Hle Hv. unfold copy_prev. eapply Rsat_mono.
  - apply (forR_sat B (fun j t => exists c', t = Some (Arr b c') /\ tails_upto rows j c')); [eauto|].
    intros j t Hj (c' & -> & Ht). destruct j as [|j]; [lia|]. simpl. rewrite Nat.sub_0_r. pose proof Ht as [Hl Hk].
    rewrite (aget_cells _ _ _ (offs rows j)) by (apply Hk; lia). simpl. rewrite aset_cells by lia. simpl.
    eexists. split; [done|]. rewrite <- (Nat.add_0_r (offs rows j)). apply (tails_upto_step rows j c' []); [done|]. apply Hv. lia.
  - simpl. auto.
Qed.

Lemma write_tails_sat B rows k ok cells b c : StronglySorted lt ok -> Forall (fun q => q < length rows) ok -> filled cells ok ->
  (forall v, v < length rows -> v ∉ ok -> rows !! v = Some []) ->
  (forall v, v ∈ ok -> exists r, rows !! v = Some r /\ length r = k) ->
  tails_upto rows 1 c ->
  Rsat B (write_tails (length ok) k (Some cells) (Some (Arr b c))) (fun '(t, wr) => exists m c', wr = S m /\ m <= length rows /\
     t = Some (Arr b c') /\ tails_upto rows (S m) c' /\ forall v, m <= v < length rows -> rows !! v = Some []).
Proof.
  intros Hs Hlt Hf Hno Hin Hc. unfold write_tails. apply Rsat_bind.
  apply (forR_sat0 B (fun j '(t, wr, i) => wr = S i /\ i <= length rows /\ (exists c', t = Some (Arr b c') /\ tails_upto rows (S i) c') /\
    (forall j' q, j' < j -> ok !! j' = Some q -> q < i) /\ (forall j' q, j <= j' -> ok !! j' = Some q -> i <= q))).
  - splits; auto; [lia|eauto|lia|lia].
  - intros j [[t wr] i] Hj (-> & Hi & (c' & -> & Ht) & Hbelow & Habove).
    destruct (lookup_lt_is_Some_2 ok j Hj) as [q Hq]. rewrite (cget_ok _ _ q) by (by eapply filled_lookup). cbn [Rbind].
    assert (q < length rows) as Hqn by (by eapply Forall_lookup_1 in Hlt).
    pose proof (Habove j q (Nat.le_refl _) Hq) as Hiq.
    apply Rsat_bind. eapply Rsat_mono.
    + apply (copy_prev_sat B rows (q - i) i b c' Ht); [lia|]. intros v Hv. apply Hno; [lia|]. intros (j' & Hj')%elem_of_list_lookup.
      destruct (decide (j' < j)) as [Hjj|Hjj]; [specialize (Hbelow _ _ Hjj Hj'); lia|].
      destruct (decide (j' = j)) as [->|]; [assert (v = q) by congruence; lia|].
      assert (j < j') as Hlt' by lia.
      pose proof (sorted_lookup _ _ _ _ _ Hs Hq Hj' Hlt'). lia.
    + intros t (c2 & -> & Ht2). replace (i + (q - i)) with q in * by lia. replace (S i + (q - i) - 1) with q by lia.
      pose proof Ht2 as [Hl2 Hk2]. rewrite (aget_cells _ _ _ (offs rows q)) by (apply Hk2; lia). cbn [Rbind].
      replace (S i + (q - i)) with (S q) by lia. rewrite aset_cells by lia. cbn [Rbind]. simpl.
      splits; [lia|lia| | |].
      * eexists. split; [done|]. destruct (Hin q) as (r & Hr & Hlr); [by eapply elem_of_list_lookup_2|]. rewrite <- Hlr, Nat.add_1_r.
        by apply tails_upto_step.
      * intros j' q' Hj' Hq'. destruct (decide (j' = j)) as [->|]; [assert (q' = q) by congruence; lia|].
        specialize (Hbelow j' q' ltac:(lia) Hq'). lia.
      * intros j' q' Hj' Hq'. assert (j < j') as Hlt' by lia. pose proof (sorted_lookup _ _ _ _ _ Hs Hq Hq' Hlt'). lia.
  - intros [[t wr] i] (-> & Hi & (c' & -> & Ht) & Hbelow & _). simpl. exists i, c'. splits; auto.
    intros v Hv. apply Hno; [lia|]. intros (j & Hj)%elem_of_list_lookup. pose proof (lookup_lt_Some _ _ _ Hj).
    specialize (Hbelow j v ltac:(lia) Hj). lia.
Qed.

Lemma tails_upto_rep rows c : tails_upto rows (S (length rows)) c -> tail_rep c rows.
Proof. intros [Hl Hk]. split; [done|]. intros k Hle. apply Hk. lia. Qed.

(** ** The graph of a search *)

Section Build.
Context (cfg : config) (P : provider) (V : pview P) (ds : p_ds P) (n : nat) (G : geometry) (D : dist_fun).
Hypothesis (HP : provider_ok P V ds n G D).
Notation solid w := (no_fail w /\ provider_reliable P V ds n).
Notation dg_rep := (dg_rep cfg).

Notation feasible := (feasible G).

(** [g] has arcs from the feasible queries to their [k] nearest neighbours in [S]. *)
Record nn_graph (S : list nat) (k : nat) (rad : option double) (Q ok : list nat) (g : list (list nat)) : Prop := {
  ng_len : length g = n;
  ng_ok : ok = filter (feasible S k rad) Q;
  ng_row : forall q, q ∈ ok -> nearest G S k q (adj g q) /\ Forall (fun x => within_opt G rad q x = true) (adj g q);
  ng_none : forall v, v ∉ ok -> adj g v = []
}.

Definition nng_fail (arcs : nat) (w : world) (ec : ecode) (w' : world) : Prop :=
  e_code (w_err w') = ec /\
  ((ec = ER_NO_MEMORY /\ ~ no_fail w) \/
   (ec = ER_TOO_LARGE_PROBLEM /\ too_many_arcs cfg arcs = true) \/
   (ec = ER_DIST_SEARCH_ERROR /\ ~ solid w)).

Definition nng_post (S : list nat) (k : nat) (rad : option double) (Q : list nat) (outq : option (arr nat)) (w : world)
    (r : ecode * nat * option (arr nat) * digraph) (w' : world) : Prop :=
  let '(ec, num, outq', nng) := r in
  wle w w' /\ arr_blk outq' = arr_blk outq /\
  (ec = ER_OK -> exists ok g, dg_rep nng g /\ nn_graph S k rad Q ok g /\ num = length ok /\
     own w' (dg_blocks nng) w /\ w_err w' = w_err w /\
     match rad, outq with Some _, Some _ => written ok outq outq' | _, _ => outq' = outq end) /\
  (ec <> ER_OK -> own w' [] w /\ nng_fail (length Q * k) w ec w').

Lemma written_blk {A} (xs : list A) p p' : written xs p p' -> arr_blk p' = arr_blk p.
Proof. by intros (b & c & c' & -> & -> & _). Qed.

Lemma tails_upto_all B rows k b c m : tails_upto rows 1 c -> m <= length rows ->
  (forall v, v < m -> exists r, rows !! v = Some r /\ length r = k) ->
  Rsat B (forR m 1 (Some (Arr b c)) (fun j t => let! x := aget t (j - 1) in aset t j (x + k)))
    (fun t => exists c', t = Some (Arr b c') /\ tails_upto rows (S m) c').
Proof.
  intros Hc Hm Hr. eapply Rsat_mono.
  - apply (forR_sat B (fun j t => exists c', t = Some (Arr b c') /\ tails_upto rows j c')); [eauto|].
    intros j t Hj (c' & -> & Ht). destruct j as [|j]; [lia|]. simpl. rewrite Nat.sub_0_r. pose proof Ht as [Hl Hk].
    rewrite (aget_cells _ _ _ (offs rows j)) by (apply Hk; lia). simpl. rewrite aset_cells by lia. simpl.
    destruct (Hr j) as (r & Hrj & <-); [lia|]. eexists. split; [done|]. by apply tails_upto_step.
  - simpl. auto.
Qed.

Lemma search_rows_graph S k rad Q ok cs :
  ok = filter (feasible S k rad) Q -> StronglySorted lt Q -> Forall (fun x => x < n) Q -> Forall (fun x => x < n) S ->
  Forall2 (fun q c => nearest G S k q c /\ Forall (fun x => within_opt G rad q x = true) c) ok cs ->
  let g := search_rows n (zip ok cs) in
  nn_graph S k rad Q ok g /\ concat g = concat cs /\ Forall (Forall (fun x => x < n)) g /\
  StronglySorted lt ok /\ Forall (fun x => x < n) ok /\
  (forall v, v < n -> v ∉ ok -> g !! v = Some []) /\
  (forall v, v ∈ ok -> exists r, g !! v = Some r /\ length r = k).
Proof.
  intros Hok HsQ HltQ HltS Hcs g.
  assert (StronglySorted lt ok) as Hsok by (subst ok; by apply sorted_filter).
  assert (Forall (fun x => x < n) ok) as Hlt. { subst ok. rewrite Forall_forall in *. intros x [_ Hx]%elem_of_list_filter. auto. }
  assert ((zip ok cs).*1 = ok) as Hf1 by (apply fst_zip; rewrite (Forall2_length _ _ _ Hcs); lia).
  assert ((zip ok cs).*2 = cs) as Hf2 by (apply snd_zip; rewrite (Forall2_length _ _ _ Hcs); lia).
  assert (forall q, q ∈ ok -> nearest G S k q (lookup_row (zip ok cs) q) /\
    Forall (fun x => within_opt G rad q x = true) (lookup_row (zip ok cs) q)) as Hrow.
  { intros q (j & Hj)%elem_of_list_lookup. destruct (Forall2_lookup_l _ _ _ _ _ Hcs Hj) as (c & Hc & Hn).
    rewrite (lookup_row_in _ j q c); [done|by rewrite Hf1; apply sorted_NoDup|]. apply lookup_zip_with_Some. eauto 10. }
  assert (forall v, v ∉ ok -> lookup_row (zip ok cs) v = []) as Hno by (intros v Hv; apply lookup_row_none; by rewrite Hf1).
  splits; auto.
  - constructor; auto.
    + apply search_rows_length.
    + intros q Hq. unfold g. rewrite search_rows_adj; [auto|]. rewrite Forall_forall in Hlt. auto.
    + intros v Hv. unfold g. destruct (decide (v < n)) as [Hv'|Hv']; [rewrite search_rows_adj; auto|].
      unfold adj. rewrite lookup_ge_None_2; [done|]. rewrite search_rows_length. lia.
  - unfold g, search_rows. rewrite concat_search_rows; [by rewrite Hf2|by rewrite Hf1|]. rewrite Hf1. eapply Forall_impl; [exact Hlt|].
    simpl. lia.
  - apply Forall_lookup. intros v r Hr. assert (v < n) as Hv. { apply lookup_lt_Some in Hr. unfold g in Hr. by rewrite search_rows_length in Hr. }
    unfold g in Hr. rewrite search_rows_lookup in Hr by done. injection Hr as <-.
    destruct (decide (v ∈ ok)) as [Hi|Hi]; [|rewrite Hno by done; constructor].
    destruct (Hrow v Hi) as [Hn _]. rewrite Forall_forall in *. intros x Hx. apply HltS. eapply elem_of_submseteq; [exact Hx|]. apply Hn.
  - intros v Hv Hi. unfold g. by rewrite search_rows_lookup, Hno.
  - intros v Hv. exists (lookup_row (zip ok cs) v). unfold g. rewrite search_rows_lookup by (rewrite Forall_forall in Hlt; auto).
    split; [done|]. apply Hrow. done.
Qed.

Lemma Msat_make_nng_so B o lenq q Q k rad outq w :
  nn_good V o -> (forall x, cnt x (nn_blk V o) <= cnt x (w_live w)) -> Forall (fun x => x < n) (nn_set V o) ->
  argcells q lenq Q -> Q <> [] -> StronglySorted lt Q -> Forall (fun x => x < n) Q ->
  0 < k -> k <= length (nn_set V o) -> (N.of_nat (lenq * k) <= u64max)%N ->
  (forall r, rad = Some r -> match outq with Some a => lenq <= length (a_cells a) | None => True end) ->
  Msat B (make_nng_from_search_object cfg P o n lenq q k rad outq) w (nng_post (nn_set V o) k rad Q outq w).
Proof.
  intros Hg Hb HltS Hq Hne HsQ HltQ Hk Hks Hw Hout. pose proof (argcells_length _ _ _ Hq) as HlQ.
  unfold make_nng_from_search_object. rewrite wrapN_small by done.
  (* the buffer for the successful queries *)
  assert (0 < lenq) as Hlq. { destruct Q; simpl in *; [done|lia]. }
  set (bufpost := fun (a : option (option (arr nat) * option (arr nat))) (w1 : world) =>
    wle w w1 /\ w_err w1 = w_err w /\
    match a with
    | None => own w1 [] w /\ ~ no_fail w
    | Some (internal, dist_out) => own w1 (arr_blk internal) w /\
       match rad with
       | None => internal = None /\ dist_out = None
       | Some _ => match outq with
                   | Some _ => internal = None /\ dist_out = outq
                   | None => exists b, internal = Some (Arr b (fresh nat lenq)) /\ dist_out = internal
                   end
       end
    end).
  eapply Msat_bind_mono with (P := bufpost).
  { unfold bufpost. destruct rad as [r|]; [|apply Msat_ret; splits; auto; apply own_refl].
    destruct outq as [oq|]; [apply Msat_ret; splits; auto; apply own_refl|].
    apply Msat_bind. apply Msat_malloc_arr.
    - intros w1 L1 O1 E1 T1 F1. apply Msat_ret. auto.
    - intros w1 b L1 O1 E1 T1. apply Msat_ret. simpl. splits; eauto. }
  intros [[internal dist_out]|] w1 (L1 & E1 & HA).
  2:{ destruct HA as [O1 F1]. apply Msat_bind. apply Msat_make_error__. intros w2 L2 O2 E2 T2. apply Msat_ret.
      unfold nng_post. splits; eauto; [done|]. intros _. split; [blk|]. split; [by rewrite E2|]. auto. }
  destruct HA as [O1 HA].
  eapply Msat_bind_mono; [apply Msat_init_digraph|]. intros [ec nng] w2 (L2 & T2 & Hok & Hbad).
  destruct (decide (ec <> ER_OK)) as [Hec|Hec].
  { destruct (Hbad Hec) as (O2 & Hr & Er). simpl in *. apply Msat_bind. apply Msat_free_arr; [blk|].
    intros w3 L3 C3 E3 T3. apply Msat_ret. unfold nng_post. splits; eauto; [done|]. intros _. split; [blk|]. split; [congruence|].
    rewrite HlQ. destruct Hr as [[? ->]|[F ->]]; [auto|]. left. split; [done|]. intros F'. apply F. by eapply no_fail_wle. }
  assert (ec = ER_OK) as -> by (destruct (decide (ec = ER_OK)); tauto). clear Hec Hbad.
  destruct (Hok eq_refl) as (O2 & E2 & Htm & Hn & Hmax & (tb & Htail) & Hhead). simpl in *. clear Hok.
  rewrite decide_False in Hhead by nia. destruct Hhead as (hb & Hhead).
  rewrite Hhead, Htail.
  eapply Msat_bind_mono.
  { apply (Msat_nn_search P V ds n G D HP) with (Q := Q); auto.
    - blk.
    - destruct rad as [r|]; [|done]. destruct outq as [[ob oc]|].
      + destruct HA as [_ ->]. eexists _, _. split; [done|]. by apply (Hout r).
      + destruct HA as (b & -> & ->). eexists _, _. split; [done|]. unfold fresh. by rewrite replicate_length.
    - unfold fresh. by rewrite replicate_length. }
  intros s w3 (L3 & O3 & E3 & HS).
  assert (wle w w3) as Lw3 by eauto.
  destruct s as [[[num ob] head]|].
  2:{ apply Msat_bind. apply Msat_free_arr; [blk|]. intros w4 L4 C4 E4 T4.
      apply Msat_bind. apply Msat_free_digraph; [blk|]. intros w5 L5 C5 E5 T5.
      apply Msat_bind. apply Msat_make_error__. intros w6 L6 O6 E6 T6. apply Msat_ret.
      unfold nng_post. splits; eauto; [done|]. intros _. split; [blk|]. split; [by rewrite E6|].
      right. right. split; [done|]. intros Hsol. apply HS. eapply solid_wle; [|exact Hsol]. eauto. }
  destruct HS as (ok & nn & Hsok & -> & Hwr & Hob).
  pose proof (search_ok_lengths _ _ _ _ _ _ _ Hsok) as [Hlnn Hlok].
  destruct Hsok as (Hokq & cs & -> & Hcs).
  change (ok = filter (feasible (nn_set V o) k rad) Q) in Hokq.
  pose proof (search_rows_graph _ _ _ _ _ _ Hokq HsQ HltQ HltS Hcs) as HG. set (g := search_rows n (zip ok cs)) in *. cbv zeta in HG.
  destruct HG as (HG & Hcat & Hglt & Hsok & Hltok & Hgno & Hgin).
  assert (length g = n) as Hgl by apply search_rows_length.
  destruct Hwr as (hb' & hc & hc' & Ehb & -> & Hhf & Hhl). injection Ehb as <- <-.
  set (dist_out' := match ob with Some b => b | None => dist_out end).
  (* the buffer after the search *)
  assert (match rad with
          | None => dist_out' = None /\ ok = Q
          | Some _ => written ok dist_out dist_out' end) as Hbuf.
  { unfold dist_out'. destruct rad as [r|].
    - destruct ob as [b|]; [done|]. done.
    - destruct ob; [done|]. destruct HA as [_ ->]. split; [done|]. rewrite Hokq. apply list_filter_all.
      eapply Forall_impl; [exact HltQ|]. intros x _. unfold feasible. simpl. rewrite list_filter_all; [done|]. by apply Forall_forall. }
  apply Msat_bind, Msat_lift.
  rewrite aset_cells by (rewrite replicate_length; lia). cbn [Rbind].
  assert (tails_upto g 1 (<[0:=Some 0]> (replicate (n + 1) None))) as Ht1.
  { split; [rewrite insert_length, replicate_length, Hgl; lia|]. intros j Hj. assert (j = 0) as -> by lia.
    rewrite list_lookup_insert by (rewrite replicate_length; lia). done. }
  eapply Rsat_bind_mono with (Q := fun '(t, wr) => exists m c', wr = S m /\ m <= length g /\
     t = Some (Arr tb c') /\ tails_upto g (S m) c' /\ forall v, m <= v < length g -> g !! v = Some []).
  { case_decide as Hd.
    - destruct rad as [r|].
      + destruct Hbuf as (b1 & c1 & c1' & -> & -> & Hf1 & _). simpl. apply write_tails_sat; auto; rewrite Hgl; auto.
      + destruct Hbuf as [_ ->]. destruct q as [qc|]; [|by destruct Hd as [[? ?]|[? ?]]]. destruct Hq as [Hqf _].
        replace lenq with (length Q) by done. apply write_tails_sat; auto; rewrite Hgl; auto.
    - destruct rad as [r|]; [exfalso; apply Hd; left; by eexists|]. destruct q as [qc|]; [exfalso; apply Hd; right; by eexists|].
      destruct Hbuf as [_ ->]. simpl in Hq. apply Rsat_bind.
      assert (lenq <= n) as Hle. { subst Q. rewrite Forall_forall in HltQ. specialize (HltQ (lenq - 1)). rewrite elem_of_seq in HltQ. lia. }
      eapply Rsat_mono.
      + apply (tails_upto_all B g k tb _ lenq Ht1); [lia|]. intros v Hv. apply Hgin. subst Q. apply elem_of_seq. lia.
      + intros t (c' & -> & Ht'). simpl. exists lenq, c'. splits; auto; [lia|]. intros v Hv. apply Hgno; [lia|].
        subst Q. rewrite elem_of_seq. lia. }
  intros [t wr] (m & c' & -> & Hm & -> & Ht' & Hrest).
  eapply Rsat_mono.
  { replace (n + 1 - S m) with (length g - m) by lia. apply (copy_prev_sat B g (length g - m) m tb c' Ht'); [lia|].
    intros v Hv. apply Hrest. lia. }
  intros t (c2 & -> & Ht2). replace (m + (length g - m)) with (length g) in Ht2 by lia. apply tails_upto_rep in Ht2.
  set (nng' := DG (dg_n nng) (dg_max nng) (Some (Arr hb hc')) (Some (Arr tb c2))).
  assert (dg_rep nng' g) as Hrep.
  { constructor; simpl.
    - by rewrite Hn, Hgl.
    - eauto.
    - rewrite Hmax, Hhl. unfold fresh. rewrite replicate_length. splits; [done|nia|]. by rewrite Hcat.
    - by rewrite Hgl.
    - by rewrite Hmax. }
  assert (arr_blk dist_out' = arr_blk dist_out) as Hbb.
  { destruct rad as [r|]; [by eapply written_blk|]. destruct Hbuf as [-> _]. by destruct HA as [_ ->]. }
  apply Msat_bind. apply Msat_free_arr; [blk|].
  intros w4 L4 C4 E4 T4.
  set (outq' := match internal with Some _ => outq | None => match rad with Some _ => dist_out' | None => outq end end).
  assert (arr_blk outq' = arr_blk outq /\ match rad, outq with Some _, Some _ => written ok outq outq' | _, _ => outq' = outq end) as [Hob1 Hob2].
  { unfold outq'. destruct rad as [r|].
    - destruct outq as [oq|].
      + destruct HA as [-> ->]. split; [done|]. done.
      + destruct HA as (b & -> & ->). done.
    - destruct internal; destruct outq; done. }
  assert (own w4 (dg_blocks nng') w) as O4.
  { unfold dg_blocks in *. rewrite Hhead, Htail in O2. simpl in *. blk. }
  assert (wle w w4) as Lw4 by eauto.
  assert (w_err w4 = w_err w) as Ew4 by congruence.
  case_decide as Hlt.
  - rewrite wrapN_small by nia.
    assert (length ok * k = length (concat g)) as -> by (rewrite Hcat; lia).
    eapply Msat_bind_mono; [apply Msat_change_arc_storage; [exact Hrep|blk]|].
    intros [ec dg'] w5 (L5 & T5 & C5 & Ho & Hf). simpl in *. case_decide as Hec.
    + destruct (Hf Hec) as (-> & F & Er). apply Msat_bind. apply Msat_free_digraph; [blk|].
      intros w6 L6 C6 E6 T6. apply Msat_ret. unfold nng_post. splits; eauto; [done|]. intros _. split; [blk|].
      split; [by rewrite E6|]. left. split; [done|]. intros F'. apply F. eapply no_fail_wle; eauto.
    + assert (ec = ER_OK) as -> by (destruct (decide (ec = ER_OK)); tauto). destruct (Ho eq_refl) as (Hrep' & _ & Er).
      apply Msat_ret. unfold nng_post. splits; eauto; [|done]. intros _. exists ok, g. splits; auto; [blk|congruence].
  - apply Msat_ret. unfold nng_post. splits; eauto; [|done]. intros _. exists ok, g. splits; auto.
Qed.
End Build.
