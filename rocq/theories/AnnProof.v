(** What the search functions built on the ANN library return. *)

From stdpp Require Import prelude list.
From Coq Require Import NArith ZArith.
From Verif Require Import Base World Mem Arrays DigraphRep Float Spi Dist DistProof NngStage Sim Ann.

(** ** The ANN library *)

(** The points at the positions [c] of the list [S]. *)
Definition points_at (S c : list nat) : list nat := (fun t => default 0 (S !! t)) <$> c.

(** The library finds exactly the nearest of the points it is given: for search points
    [S] and a query [q] of the data set [d] with [n] points, annkSearch writes the
    positions in [S] of [k] nearest neighbours in Euclidean distance, nearest first; annkFRSearch counts the
    points within the radius and writes the positions of the [k] nearest if there are
    that many. *)
Record ann_exact (lib : ann_lib) (d : dataset) (n : nat) : Prop := {
  ax_k : forall m S q k, ds_matrix d = Some m -> NoDup S -> Forall (fun x => x < n) S -> q < n -> 0 < k -> k <= length S ->
    let c := ann_k lib m (ds_dim d) ((fun x => x * ds_dim d) <$> S) (q * ds_dim d) k in
    Forall (fun t => t < length S) c /\ nearest (eucl_geo d) S k q (points_at S c);
  ax_fr : forall m S q k r, ds_matrix d = Some m -> NoDup S -> Forall (fun x => x < n) S -> q < n -> 0 < k -> k <= length S ->
    let '(found, c) := ann_fr lib m (ds_dim d) ((fun x => x * ds_dim d) <$> S) (q * ds_dim d) (d_mul r r) k in
    length c = k /\ found = length (filter (fun x => within (eucl_geo d) r q x = true) S) /\
    (k <= found -> exists c', c = Some <$> c' /\ Forall (fun t => t < length S) c' /\
       nearest (eucl_geo d) S k q (points_at S c') /\ Forall (fun x => within (eucl_geo d) r q x = true) (points_at S c'))
}.

(** ** The wrapper without its leaks *)

Section Clean.
Context (lib : ann_lib) (pi_int : bool).

Definition clean_init (d : option dataset) (s : indices) : M (option aobj) :=
  if (i32max <? N.of_nat s.1)%N then Mret None else
  let* pb := malloc s.1 in
  match pb with
  | None => Mret None
  | Some pb =>
  let* ob := malloc 1 in
  match ob with
  | None => let* _ := free (Some pb) in Mret None
  | Some ob =>
  let* pts := lift (with_ds d (fun d =>
    forR s.1 0 [] (fun i acc => let! x := iat s i in let! p := point_at d x in Ok (acc ++ [p])))) in
  let* tb := malloc s.1 in
  match tb with
  | None =>
      let* _ := free (Some pb) in
      let* _ := free (Some ob) in
      Mret None
  | Some tb =>
      let* t := get_open in
      let* _ := set_open (t + 1) in
      Mret (Some (AObj ob pb tb d s pts))
  end
  end
  end.

Definition clean_search_2 (o : aobj) (q : indices) (k : nat) (rad : option double) (ix : list (option nat)) : M (option (list nat * list nat)) :=
  let* ib := malloc_arr nat k in
  match ib with
  | None => Mret None
  | Some ib =>
  let* db := malloc_arr double k in
  match db with
  | None => let* _ := free_arr (Some ib) in Mret None
  | Some db =>
      let* r := lift (with_ds (ao_ds o) (fun d =>
        let! r := translated_search lib d o q k rad (a_cells ib) ix in
        neighbours r.1 k r.2.2)) in
      let* _ := free_arr (Some ib) in
      let* _ := free_arr (Some db) in
      Mret (Some r)
  end
  end.

Definition clean_search (o : aobj) (q : indices) (k : nat) (rad : option double) : M (option (list nat * list nat)) :=
  let* _ := deref (ao_blk o) in
  let* _ := deref (ao_tblk o) in
  if (i32max <? N.of_nat k)%N then Mret None else
  let ix := fresh nat (q.1 * k) in
  if pi_int && match (ao_set o).2 with None => true | Some _ => false end then
    let* db := malloc_arr double k in
    match db with
    | None => Mret None
    | Some db =>
        let* r := lift (with_ds (ao_ds o) (fun d => direct_search lib d (ao_points o) q k rad ix)) in
        match rad with
        | None => let* _ := free_arr (Some db) in clean_search_2 o q k rad r.2
        | Some _ =>
            let* r := lift (neighbours r.1 k r.2) in
            let* _ := free_arr (Some db) in
            Mret (Some r)
        end
    end
  else clean_search_2 o q k rad ix.

Definition clean_funs : pfuns (option dataset) aobj sobj :=
  PFuns _ _ _ imp_matrix imp_rows imp_init imp_max_get imp_close clean_init clean_search ann_close.
Definition clean : provider := provider_of imp_check imp_num clean_funs.

(** The wrapper returns the same; with [lk] false nothing is left behind. *)
Lemma sm_malloc_bind {A} lk n (k1 k2 : option nat -> M A) : (lk = true -> simM lk (k1 None) (k2 None)) -> (forall b, simM lk (k1 (Some b)) (k2 (Some b))) ->
  simM lk (Mbind (malloc n) k1) (Mbind (malloc n) k2).
Proof.
  intros H1 H2 w1 w2 a w2' Hs E. unfold Mbind in *. destruct (malloc _ w2) as [[p v2]|] eqn:E2; [|done]. destruct (sm_malloc lk _ _ _ _ _ Hs E2) as (v1 & -> & Hs1).
  destruct p as [b|]; [by eapply H2|]. eapply H1; eauto. destruct lk; [done|]. exfalso. destruct Hs as (F1 & F2 & _ & _ & _ & F3). destruct (F3 eq_refl) as [Hn _].
  unfold malloc in E2. destruct (w_fail w2 (w_next w2)) eqn:Ef; [|done]. rewrite <- F1, <- F2, Hn in Ef; [done|lia].
Qed.
Lemma sm_malloc_arr_bind {A B} lk n (k1 k2 : option (arr A) -> M B) : (lk = true -> simM lk (k1 None) (k2 None)) -> (forall b, simM lk (k1 (Some b)) (k2 (Some b))) ->
  simM lk (Mbind (malloc_arr A n) k1) (Mbind (malloc_arr A n) k2).
Proof.
  intros H1 H2 w1 w2 a w2' Hs E.
  pose proof (sm_malloc_bind lk n (fun p => k1 (match p with Some b => Some (Arr b (fresh A n)) | None => None end)) (fun p => k2 (match p with Some b => Some (Arr b (fresh A n)) | None => None end)) H1 (fun b => H2 _) w1 w2 a w2' Hs) as H.
  unfold malloc_arr, Mbind, Mret in *. destruct (malloc _ w2) as [[p2 v2]|]; [|done]. destruct (malloc _ w1) as [[p1 v1]|]; auto.
Qed.
Lemma sm_drop {A} p (m1 m2 : M A) : simM true m1 m2 -> simM true m1 (let* _ := free p in m2).
Proof.
  intros H w1 w2 a w2' Hs E. unfold Mbind in E. destruct (free p w2) as [[[] v2]|] eqn:E2; [|done]. apply (H w1 v2 a w2'); [|done].
  unfold free in E2. destruct p as [b|]; [|by injection E2 as <-]. destruct (decide (b ∈ w_live w2)); [|done]. injection E2 as <-.
  destruct Hs as (H1 & H2 & H3 & H4 & H5 & H6). unfold simw. simpl. splits; auto; [|done]. intros x. rewrite cnt_remove. specialize (H5 x). lia.
Qed.
Lemma sm_deref lk b : simM lk (deref b) (deref b).
Proof. intros w1 w2 a w2' Hs E. unfold deref in *. destruct (decide (b ∈ w_live w2)); [|done]. injection E as <- <-. rewrite decide_True by (by eapply simw_in). by exists w1. Qed.
Lemma sm_get_open lk : simM lk get_open get_open.
Proof. intros w1 w2 a w2' Hs [= <- <-]. exists w1. split; [|done]. unfold get_open. by destruct Hs as (_ & _ & _ & -> & _). Qed.
Lemma sm_set_open lk t : simM lk (set_open t) (set_open t).
Proof. intros w1 w2 a w2' (H1 & H2 & H3 & H4 & H5 & H6) [= <- <-]. eexists. split; [done|]. unfold simw. simpl. splits; auto. Qed.
Hint Resolve sm_deref sm_get_open sm_set_open sm_malloc_arr sm_free_arr : sim.

Lemma sm_init lk d s : simM lk (ann_init d s) (clean_init d s).
Proof.
  unfold ann_init, clean_init. destruct (i32max <? N.of_nat s.1)%N; [apply sm_ret|]. apply sm_malloc_bind; [intros _; apply sm_ret|]. intros pb. apply sm_malloc_bind; [intros ->; apply sm_drop, sm_ret|]. intros ob. sim_all.
Qed.
Lemma sm_search_2 lk o q k rad ix : simM lk (ann_search_2 lib o q k rad ix) (clean_search_2 o q k rad ix).
Proof.
  unfold ann_search_2, clean_search_2. apply sm_malloc_arr_bind; [intros _; apply sm_ret|]. intros ib. apply sm_malloc_arr_bind; [intros ->; apply sm_drop, sm_ret|]. intros db. sim_all.
Qed.
Lemma sm_search lk o q k rad : (lk = true \/ pi_int = false) -> simM lk (ann_search lib pi_int o q k rad) (clean_search o q k rad).
Proof.
  intros Hl. unfold ann_search, clean_search. apply sm_bind; [apply sm_deref|]. intros _. apply sm_bind; [apply sm_deref|]. intros _. destruct (i32max <? N.of_nat k)%N; [apply sm_ret|]. cbv zeta.
  destruct Hl as [->| ->]; [|apply sm_search_2]. destruct (pi_int && _); [|apply sm_search_2]. apply sm_bind; [apply sm_malloc_arr|]. intros [db|]; [|apply sm_ret].
  apply sm_bind; [apply sm_lift|]. intros r. destruct rad as [r0|]; [sim_all|]. apply sm_drop, sm_search_2.
Qed.
Lemma sim_clean lk : (lk = true \/ pi_int = false) -> sim_funs lk (ann_funs lib pi_int) clean_funs.
Proof.
  intros Hl. constructor; simpl; intros.
  - apply sm_lift.
  - apply sm_lift.
  - unfold imp_init. sim_all.
  - unfold imp_max_get. sim_all.
  - unfold imp_close. sim_all.
  - apply sm_init.
  - by apply sm_search.
  - unfold ann_close. sim_all.
Qed.
End Clean.

(** ** The searches *)

Section Search.
Context (lib : ann_lib) (pi_int : bool) (d : dataset) (n : nat).
Hypothesis (Hd : data_ok d n) (HA : ann_exact lib d n).
Notation G := (eucl_geo d).

Definition ann_view : pview (clean lib pi_int) := {|
  nn_set := fun o : p_nn (clean lib pi_int) => il_list (ao_set o);
  nn_blk := fun o : p_nn (clean lib pi_int) => [ao_blk o; ao_pblk o; ao_tblk o];
  nn_good := fun o : p_nn (clean lib pi_int) => ao_ds o = Some d /\ search_set n (ao_set o) /\ ao_points o = (fun x => x * ds_dim d) <$> il_list (ao_set o);
  mx_set := mx_set (builtin_view d n); mx_blk := mx_blk (builtin_view d n); mx_good := mx_good (builtin_view d n)
|}.

Lemma point_at_ok i : i < n -> point_at d i = Ok (i * ds_dim d).
Proof. intros Hi. destruct Hd as [_ _ _ _ (m & E & Hm & _)]. unfold point_at. rewrite E, decide_True; [done|]. nia. Qed.

(** Enough search points are within the radius of [v]. *)
Definition enough_in (S : list nat) (k : nat) (rad : option double) (v : nat) : Prop := k <= length (filter (fun x => within_opt G rad v x = true) S).
Definition row_ok (S : list nat) (k : nat) (rad : option double) (v : nat) (c : list nat) : Prop :=
  nearest G S k v c /\ Forall (fun x => within_opt G rad v x = true) c.

Lemma all_in (S : list nat) : filter (fun _ => true = true) S = S.
Proof. induction S as [|x S IH]; [done|]. by rewrite filter_cons_True, IH. Qed.

Lemma ann_call_ok S v k rad : NoDup S -> Forall (fun x => x < n) S -> v < n -> 0 < k -> k <= length S ->
  exists found xs, ann_call lib d ((fun x => x * ds_dim d) <$> S) v k rad = Ok (found, xs) /\ length xs = k /\ (k <= found <-> enough_in S k rad v) /\
    (k <= found -> exists c, xs = Some <$> c /\ length c = k /\ Forall (fun t => t < length S) c /\ row_ok S k rad v (points_at S c)).
Proof.
  intros H1 H2 Hv Hk HkS. pose proof Hd as [_ _ _ _ (m & E & _)]. unfold ann_call, enough_in, row_ok. rewrite E, (point_at_ok v Hv). cbn [Rbind]. destruct rad as [r|]; cbn [within_opt].
  - pose proof (ax_fr _ _ _ HA m S v k r E H1 H2 Hv Hk HkS) as H. destruct (ann_fr _ _ _ _ _ _ _) as [found c]. destruct H as (L & -> & H). eexists _, _. split; [done|]. split; [done|]. split; [done|].
    intros Hf. destruct (H Hf) as (c' & -> & F & N & W). exists c'. splits; auto. by rewrite fmap_length in L.
  - destruct (ax_k _ _ _ HA m S v k E H1 H2 Hv Hk HkS) as [F N]. eexists _, _. split; [done|].
    pose proof (nst_len _ _ _ _ _ N) as L. unfold points_at in L. rewrite fmap_length in L.
    split; [by rewrite fmap_length|]. split.
    + split; [intros _|done]. rewrite all_in. done.
    + intros _. eexists. splits; [done|done|done|done|]. by apply Forall_true.
Qed.

Definition found_in (S Q : list nat) (k : nat) (rad : option double) : list nat := filter (fun v => k <= length (filter (fun x => within_opt G rad v x = true) S)) Q.

(** State of a search after the queries [Q]. *)
Definition searched (S Q : list nat) (k : nat) (rad : option double) (ok : list nat) (ix : list (option nat)) : Prop :=
  ok = found_in S Q k rad /\ exists cs, Forall2 (row_ok S k rad) ok cs /\ filled ix (concat cs).

Lemma rows_length S k rad ok cs : Forall2 (row_ok S k rad) ok cs -> length (concat cs) = length ok * k.
Proof. induction 1 as [|v c ok cs [N _] _ IH]; [done|]. cbn [concat length]. rewrite app_length, IH, (nst_len _ _ _ _ _ N). lia. Qed.

Lemma found_in_snoc S Q v k rad : found_in S (Q ++ [v]) k rad = found_in S Q k rad ++ (if decide (enough_in S k rad v) then [v] else []).
Proof. unfold found_in, enough_in. rewrite filter_app, filter_cons, filter_nil. by destruct (decide _). Qed.
Lemma found_in_length S Q k rad : length (found_in S Q k rad) <= length Q.
Proof. apply filter_length. Qed.

Lemma neighbours_ok S Q k rad ok ix : searched S Q k rad ok ix -> exists nn, neighbours ok k ix = Ok (ok, nn) /\ search_ok G S Q k rad ok nn.
Proof.
  intros (E & cs & H1 & H2). pose proof (rows_length _ _ _ _ _ H1) as Hlen.
  assert (Rsat none (neighbours ok k ix) (fun r => r = (ok, concat cs))) as H.
  { unfold neighbours. eapply Rsat_bind_mono with (Q := fun nn => nn = concat cs); [|by intros ? ->].
    apply (forR_sat0 none (fun i acc => acc = take i (concat cs))); [done| |].
    - intros i acc Hi ->. destruct (lookup_lt_is_Some_2 (concat cs) i) as [x Hx]; [lia|]. rewrite (cget_ok _ _ x) by (by eapply filled_lookup). simpl. symmetry. by apply take_S_r.
    - intros acc ->. apply take_ge. lia. }
  unfold Rsat in H. destruct (neighbours ok k ix) as [r|]; [|done]. subst r. eexists. split; [done|]. split; [done|]. exists cs. split; [done|]. done.
Qed.

Lemma store_ok xs off ix : off + length xs <= length ix -> store xs off ix = Ok (take off ix ++ xs ++ drop (off + length xs) ix).
Proof. intros H. unfold store. by rewrite decide_True. Qed.

Lemma take_filled {A} (c : list (option A)) xs i : filled c xs -> i = length xs -> take i c = Some <$> xs.
Proof. intros [r ->] ->. rewrite take_app_le by (by rewrite fmap_length). rewrite take_ge by (by rewrite fmap_length). done. Qed.

Section Obj.
Context (o : aobj) (q : indices) (k : nat) (rad : option double).
Hypothesis (Ho : nn_good ann_view o) (Hq : query_list n q) (Hk : 0 < k) (HkS : k <= length (il_list (ao_set o))).
Notation S := (il_list (ao_set o)).
Notation Q := (il_list q).

Lemma direct_ok ix : (ao_set o).2 = None -> length ix = q.1 * k ->
  Rsat none (direct_search lib d (ao_points o) q k rad ix) (fun r => searched S Q k rad r.1 r.2 /\ length r.2 = q.1 * k).
Proof.
  intros Hnone Hix. destruct Ho as (_ & (Hs1 & Hs2 & Hs3 & Hs4) & Hp). destruct Hq as (Hq1 & Hq2 & Hq3). rewrite Hp.
  assert (forall c, Forall (fun t => t < length S) c -> points_at S c = c) as Hpts.
  { assert (S = seq 0 (ao_set o).1) as -> by (unfold il_list; by rewrite Hnone). intros c. unfold points_at. rewrite seq_length. induction 1 as [|t c Ht _ IH]; [done|]. rewrite fmap_cons, IH, lookup_seq_lt by done. done. }
  unfold direct_search. apply (forR_sat0 none (fun i r => searched S (take i Q) k rad r.1 r.2 /\ length r.2 = q.1 * k)).
  - split; [|done]. split; [done|]. exists []. split; [constructor|apply filled_nil].
  - intros i [ok ix'] Hi [(E & cs & H1 & H2) H3]. simpl in *. destruct (lookup_lt_is_Some_2 Q i) as [v Hv]; [lia|].
    rewrite (iat_ok q i v Hq2 Hv). cbn [Rbind]. assert (v < n) as Hvn by (by eapply Forall_lookup_1 in Hq3).
    destruct (ann_call_ok S v k rad Hs4 Hs3 Hvn Hk HkS) as (found & xs & Ec & Hx & Hf & Hr). rewrite Ec. cbn [Rbind fst snd].
    pose proof (rows_length _ _ _ _ _ H1) as Hlen. assert (length ok <= i) as Hoki. { rewrite E. etransitivity; [apply found_in_length|]. rewrite take_length. lia. }
    rewrite store_ok by (rewrite H3, Hx; nia). cbn [Rbind]. assert (take (Datatypes.S i) Q = take i Q ++ [v]) as Etk by (by apply take_S_r).
    assert (length (take (length ok * k) ix' ++ xs ++ drop (length ok * k + length xs) ix') = q.1 * k) as Hl. { rewrite !app_length, take_length, drop_length, H3, Hx. nia. }
    rewrite (take_filled ix' (concat cs)) in Hl |- * by auto. unfold searched. rewrite Etk, found_in_snoc, <- E. destruct (decide (k <= found)) as [Hd1|Hd1]; (split; [|exact Hl]); cbn [fst snd].
    + rewrite decide_True by (by apply Hf). split; [done|]. destruct (Hr Hd1) as (c & -> & Hc1 & Hc2 & Hc3). rewrite Hpts in Hc3 by done.
      exists (cs ++ [c]). split; [apply Forall2_app; [done|by constructor]|]. rewrite concat_app. simpl. rewrite app_nil_r. eexists. rewrite fmap_app, <- app_assoc. done.
    + rewrite decide_False by (by rewrite <- Hf). split; [by rewrite app_nil_r|]. exists cs. split; [done|]. eexists. done.
  - intros r [H1 H2]. split; [|done]. by rewrite take_ge in H1 by lia.
Qed.

Lemma translated_ok sc ix : length sc = k -> length ix = q.1 * k ->
  Rsat none (translated_search lib d o q k rad sc ix) (fun r => searched S Q k rad r.1 r.2.2).
Proof.
  intros Hsc Hix. destruct Ho as (_ & (Hs1 & Hs2 & Hs3 & Hs4) & Hp). destruct Hq as (Hq1 & Hq2 & Hq3).
  unfold translated_search. apply (forR_sat0 none (fun i r => searched S (take i Q) k rad r.1 r.2.2 /\ length r.2.2 = q.1 * k /\ length r.2.1 = k)).
  - split; [|done]. split; [done|]. exists []. split; [constructor|apply filled_nil].
  - intros i [ok [sc' ix']] Hi ((E & cs & H1 & H2) & H3 & H4). simpl in *. destruct (lookup_lt_is_Some_2 Q i) as [v Hv]; [lia|].
    rewrite (iat_ok q i v Hq2 Hv). cbn [Rbind]. assert (v < n) as Hvn by (by eapply Forall_lookup_1 in Hq3). rewrite Hp.
    destruct (ann_call_ok S v k rad Hs4 Hs3 Hvn Hk HkS) as (found & xs & Ec & Hx & Hf & Hr). rewrite Ec. cbn [Rbind fst snd].
    pose proof (rows_length _ _ _ _ _ H1) as Hlen. assert (length ok <= i) as Hoki. { rewrite E. etransitivity; [apply found_in_length|]. rewrite take_length. lia. }
    rewrite store_ok by lia. cbn [Rbind take]. rewrite app_nil_l, drop_ge, app_nil_r by lia. assert (take (Datatypes.S i) Q = take i Q ++ [v]) as Etk by (by apply take_S_r).
    unfold searched. rewrite Etk, found_in_snoc, <- E. destruct (decide (k <= found)) as [Hd1|Hd1].
    + rewrite decide_True by (by apply Hf). destruct (Hr Hd1) as (c & -> & Hc1 & Hc2 & Hc3).
      eapply Rsat_bind_mono with (Q := fun ix2 => filled ix2 (concat (cs ++ [points_at S c])) /\ length ix2 = q.1 * k).
      { rewrite concat_app. cbn [concat]. rewrite app_nil_r. apply (forR_sat0 none (fun j ix2 => filled ix2 (concat cs ++ take j (points_at S c)) /\ length ix2 = q.1 * k)).
        - rewrite take_0, app_nil_r. done.
        - intros j ix2 Hj [F1 F2]. destruct (lookup_lt_is_Some_2 c j) as [t Ht]; [lia|]. rewrite (cget_ok _ j t) by (by rewrite list_lookup_fmap, Ht). cbn [Rbind].
          assert (t < length S) as HtS by (by eapply Forall_lookup_1 in Hc2). destruct (lookup_lt_is_Some_2 S t HtS) as [x Hx']. rewrite (iat_ok (ao_set o) t x Hs2 Hx'). cbn [Rbind].
          rewrite cset_ok by (rewrite F2; nia). cbn [Rsat]. assert (points_at S c !! j = Some x) as Hpx. { unfold points_at. rewrite list_lookup_fmap, Ht. simpl. by rewrite Hx'. }
          rewrite (take_S_r _ j x Hpx), app_assoc. assert (length ok * k + j = length (concat cs ++ take j (points_at S c))) as ->.
          { rewrite app_length, take_length, Hlen. unfold points_at. rewrite fmap_length. lia. }
          split; [|by rewrite insert_length]. apply filled_snoc; [done|]. rewrite app_length, take_length, Hlen, F2. unfold points_at. rewrite fmap_length. nia.
        - intros ix2. rewrite take_ge; [done|]. unfold points_at. rewrite fmap_length. lia. }
      intros ix2 [F1 F2]. cbn [Rsat fst snd]. split; [|split; [done|by rewrite fmap_length]]. split; [done|]. exists (cs ++ [points_at S c]). split; [apply Forall2_app; [done|by constructor]|]. done.
    + rewrite decide_False by (by rewrite <- Hf). cbn [Rsat fst snd]. split; [|done]. split; [by rewrite app_nil_r|]. exists cs. done.
  - intros r (H1 & _). by rewrite take_ge in H1 by lia.
Qed.

Lemma search_2_ok ix w : length ix = q.1 * k -> Msat none (clean_search_2 lib o q k rad ix) w (fun r w' => peffect w w' [] /\
  match r with None => ~ no_fail w | Some (ok, nn) => search_ok G S Q k rad ok nn end).
Proof.
  intros Hix. unfold clean_search_2. apply Msat_bind, Msat_malloc_arr.
  { intros w1 L1 O1 E1 T1 F1. apply Msat_ret. split; [|done]. unfold peffect. auto. }
  intros w1 b1 L1 O1 E1 T1. apply Msat_bind, Msat_malloc_arr.
  { intros w2 L2 O2 E2 T2 F2. apply Msat_bind, Msat_free_arr; [simpl; intros x; specialize (O1 x); specialize (O2 x); simpl in O1, O2; lia|]. intros w3 L3 C3 E3 _. apply Msat_ret.
    split; [unfold peffect; splits; [wl|blk|congruence]|]. intros Hn. apply F2. by eapply no_fail_wle. }
  intros w2 b2 L2 O2 E2 T2. apply Msat_bind, Msat_lift. destruct Ho as (Eds & _). rewrite Eds. cbn [with_ds a_cells].
  eapply Rsat_bind_mono; [apply translated_ok; [by unfold fresh; rewrite replicate_length|done]|]. intros [ok [sc' ix']] Hse. cbn [fst snd] in *.
  destruct (neighbours_ok _ _ _ _ _ _ Hse) as (nn & -> & Hok). cbn [Rsat]. apply Msat_bind, Msat_free_arr; [simpl; intros x; specialize (O1 x); specialize (O2 x); simpl in O1, O2; lia|]. intros w3 L3 C3 E3 _.
  apply Msat_bind, Msat_free_arr; [simpl; intros x; specialize (O1 x); specialize (O2 x); specialize (C3 x); simpl in *; lia|]. intros w4 L4 C4 E4 _. apply Msat_ret. split; [|done]. unfold peffect. splits; [wl|blk|congruence].
Qed.

Lemma clean_search_ok w : (forall x, cnt x (nn_blk ann_view o) <= cnt x (w_live w)) ->
  Msat none (clean_search lib pi_int o q k rad) w (fun r w' => peffect w w' [] /\
    match r with None => ~ no_fail w \/ (i32max < N.of_nat k)%N | Some (ok, nn) => search_ok G S Q k rad ok nn end).
Proof.
  intros Hb. unfold clean_search. apply Msat_bind. eapply Msat_mono; [apply Msat_deref|].
  { specialize (Hb (ao_blk o)). simpl in Hb. rewrite decide_True in Hb by done. lia. }
  intros _ w0 ->. apply Msat_bind. eapply Msat_mono; [apply Msat_deref|].
  { specialize (Hb (ao_tblk o)). simpl in Hb. rewrite (decide_True (P := ao_tblk o = ao_tblk o)) in Hb by done. lia. }
  intros _ w0 ->. destruct (N.ltb_spec i32max (N.of_nat k)) as [Hb1|Hb1].
  { apply Msat_ret. split; [apply peffect_refl|by right]. }
  cbv zeta. assert (length (fresh nat (q.1 * k)) = q.1 * k) as Hix by (unfold fresh; by rewrite replicate_length).
  destruct (pi_int && _) eqn:Ep.
  2: { eapply Msat_mono; [by apply search_2_ok|]. intros [[ok nn]|] w' [H1 H2]; (split; [done|]); auto. }
  apply andb_true_iff in Ep as [_ Ep]. assert ((ao_set o).2 = None) as Hnone by (by destruct (ao_set o).2).
  apply Msat_bind, Msat_malloc_arr.
  { intros w1 L1 O1 E1 T1 F1. apply Msat_ret. split; [|by left]. unfold peffect. auto. }
  intros w1 b1 L1 O1 E1 T1. apply Msat_bind, Msat_lift. destruct Ho as (Eds & _). rewrite Eds. cbn [with_ds].
  eapply Rsat_mono; [by apply direct_ok|]. intros [ok ix'] [Hse Hl]. cbn [fst snd] in *. destruct rad as [r0|] eqn:Er.
  - apply Msat_bind, Msat_lift. destruct (neighbours_ok _ _ _ _ _ _ Hse) as (nn & -> & Hok). cbn [Rsat].
    apply Msat_bind, Msat_free_arr; [simpl; intros x; specialize (O1 x); simpl in O1; lia|]. intros w3 L3 C3 E3 _. apply Msat_ret. split; [|done]. unfold peffect. splits; [wl|blk|congruence].
  - apply Msat_bind, Msat_free_arr; [simpl; intros x; specialize (O1 x); simpl in O1; lia|]. intros w3 L3 C3 E3 _. rewrite <- Er. eapply Msat_mono; [by apply search_2_ok|]. intros r w4 [(L4 & O4 & E4) H].
    split; [unfold peffect; splits; [wl|blk|congruence]|]. destruct r as [[ok' nn']|]; [done|]. left. intros Hn. apply H. eapply no_fail_wle; [exact Hn|]. by eapply wle_trans.
Qed.
End Obj.

Lemma clean_init_ok s w : search_set n s -> Msat none (clean_init (Some d) s) w (fun r w' =>
  match r with
  | None => peffect w w' [] /\ (~ no_fail w \/ (i32max < N.of_nat s.1)%N)
  | Some o => peffect w w' (nn_blk ann_view o) /\ nn_good ann_view o /\ nn_set ann_view o = il_list s
  end).
Proof.
  intros Hs. unfold clean_init. destruct (N.ltb_spec i32max (N.of_nat s.1)) as [Hb1|Hb1].
  { apply Msat_ret. split; [apply peffect_refl|by right]. }
  apply Msat_bind, Msat_malloc.
  { intros w1 L1 O1 E1 T1 F1. apply Msat_ret. split; [|by left]. unfold peffect. auto. }
  intros w1 b1 L1 O1 E1 T1. apply Msat_bind, Msat_malloc.
  { intros w2 L2 O2 E2 T2 F2. apply Msat_bind, Msat_free; [specialize (O1 b1); specialize (O2 b1); simpl in O1, O2; rewrite decide_True in O1 by done; lia|]. intros w3 L3 C3 E3 _. apply Msat_ret.
    split; [unfold peffect; splits; [wl|blk|congruence]|]. left. intros Hn. apply F2. by eapply no_fail_wle. }
  intros w2 b2 L2 O2 E2 T2. apply Msat_bind, Msat_lift. cbn [with_ds]. destruct Hs as (Hs1 & Hs2 & Hs3 & Hs4).
  eapply Rsat_mono with (P := fun pts => pts = (fun x => x * ds_dim d) <$> il_list s).
  { apply (forR_sat0 none (fun i pts => pts = (fun x => x * ds_dim d) <$> take i (il_list s))); [done| |].
    - intros i pts Hi ->. destruct (lookup_lt_is_Some_2 (il_list s) i) as [x Hx]; [lia|]. rewrite (iat_ok s i x Hs2 Hx). cbn [Rbind]. rewrite (point_at_ok x) by (by eapply Forall_lookup_1 in Hs3). cbn [Rbind Rsat].
      rewrite (take_S_r _ i x Hx), fmap_app. done.
    - intros pts ->. by rewrite take_ge by lia. }
  intros pts ->. apply Msat_bind, Msat_malloc.
  { intros w3 L3 O3 E3 T3 F3. apply Msat_bind, Msat_free.
    { specialize (O1 b1); specialize (O2 b1); specialize (O3 b1). simpl in *. rewrite (decide_True (P := b1 = b1)) in O1 by done. lia. }
    intros w4 L4 C4 E4 _. apply Msat_bind, Msat_free.
    { specialize (O1 b2); specialize (O2 b2); specialize (O3 b2); specialize (C4 b2). simpl in *. rewrite (decide_True (P := b2 = b2)) in O2 by done. lia. }
    intros w5 L5 C5 E5 _. apply Msat_ret. split; [unfold peffect; splits; [wl|blk|congruence]|]. left. intros Hn. apply F3. eapply no_fail_wle; [exact Hn|]. by eapply wle_trans. }
  intros w3 b3 L3 O3 E3 T3. unfold Msat, Mbind, get_open, set_open, Mret. cbn [Rsat]. split; [|done]. unfold peffect. splits.
  - destruct L1, L2, L3. split; simpl; [congruence|lia].
  - blk.
  - simpl. congruence.
Qed.

Lemma ann_close_ok o w : (forall x, cnt x (nn_blk ann_view o) <= cnt x (w_live w)) -> Msat none (ann_close o) w (fun _ w' =>
  wle w w' /\ w_err w' = w_err w /\ forall x, cnt x (w_live w) = cnt x (nn_blk ann_view o) + cnt x (w_live w')).
Proof.
  intros Hb. unfold ann_close. apply Msat_bind. eapply Msat_mono; [apply Msat_deref|].
  { specialize (Hb (ao_blk o)). simpl in Hb. rewrite decide_True in Hb by done. lia. }
  intros _ w0 ->. cbn [nn_blk ann_view] in Hb. apply Msat_bind, Msat_free.
  { specialize (Hb (ao_tblk o)). simpl in Hb. rewrite (decide_True (P := ao_tblk o = ao_tblk o)) in Hb by done. lia. }
  intros w1 L1 C1 E1 _. apply Msat_bind, Msat_free.
  { specialize (Hb (ao_pblk o)). specialize (C1 (ao_pblk o)). simpl in Hb. rewrite (decide_True (P := ao_pblk o = ao_pblk o)) in Hb by done. lia. }
  intros w2 L2 C2 E2 _. apply Msat_bind, Msat_free.
  { specialize (Hb (ao_blk o)). specialize (C1 (ao_blk o)). specialize (C2 (ao_blk o)). simpl in Hb. rewrite (decide_True (P := ao_blk o = ao_blk o)) in Hb by done. lia. }
  intros w3 L3 C3 E3 _. unfold Msat, Mbind, get_open, set_open, Mret. destruct (decide (w_tick w3 <= 0)); cbn [Rsat].
  - splits; [wl|congruence|]. cbn [nn_blk ann_view]. blk.
  - splits; [destruct L1, L2, L3; split; simpl; [congruence|lia]|simpl; congruence|]. cbn [nn_blk ann_view]. blk.
Qed.

Lemma clean_ok : provider_ok (clean lib pi_int) ann_view (Some d) n G (eucl d).
Proof.
  pose proof (builtin_ok d n Hd) as HB. constructor.
  - apply HB.
  - apply HB.
  - intros w s Hs. eapply Msat_mono; [by apply clean_init_ok|]. intros [o|] w'; [done|tauto].
  - intros w o q k rad Ho Hq Hk HkS Hb. eapply Msat_mono; [by apply clean_search_ok|]. intros [[ok nn]|] w' [H1 H2]; done.
  - intros w o Ho Hb. by apply ann_close_ok.
  - intros w q c. apply (pk_rows _ _ _ _ _ _ HB).
  - intros w q. apply (pk_matrix _ _ _ _ _ _ HB).
  - intros w s. apply (pk_mx_init _ _ _ _ _ _ HB).
  - intros w o q. apply (pk_mx_get _ _ _ _ _ _ HB).
  - intros w o. apply (pk_mx_close _ _ _ _ _ _ HB).
Qed.
End Search.
