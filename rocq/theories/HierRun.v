(** The main loop of hierarchical clustering. *)

From stdpp Require Import prelude list sorting.
From Coq Require Import NArith ZArith.
From Verif Require Import Base World Mem Float FloatFacts Spi Options Digraph DigraphRep DigraphOps DigraphDiff Arrays NngGraph NngStage NngEst Hier HierDiv HierFind HierSpec.

(** ** The stack *)

(** Top first. *)
Fixpoint lay (hi : nat) (its : list (hitem * list nat)) : Prop :=
  match its with
  | [] => True
  | (it, ms) :: r => hi_mem it + length ms <= hi /\ lay (hi_mem it) r
  end.

Definition weight (its : list (hitem * list nat)) : nat := sum_list ((fun p => Nat.max 1 (2 * length p.2 - 1)) <$> its).
Definition total (its : list (hitem * list nat)) : nat := sum_list ((fun p => length p.2) <$> its).

Lemma weight_cons it ms r : weight ((it, ms) :: r) = Nat.max 1 (2 * length ms - 1) + weight r.
Proof. done. Qed.
Lemma total_cons it ms r : total ((it, ms) :: r) = length ms + total r.
Proof. done. Qed.

Lemma weight_items its : length its <= weight its.
Proof. induction its as [|[it ms] r IH]; [done|]. rewrite weight_cons. simpl length. lia. Qed.

Lemma weight_total its : weight its <= 2 * total its + length its.
Proof. induction its as [|[it ms] r IH]; [done|]. rewrite weight_cons, total_cons. simpl length. lia. Qed.

Section Run.
Context (cfg : config) (P : provider) (V : pview P) (ds : p_ds P) (n : nat) (G : geometry) (D : dist_fun).
Hypothesis (Hcfg : config_ok cfg) (HP : provider_ok P V ds n G D) (HG : dist_sane G D n).
Context (qs : world -> list (nat * double) -> list (nat * double)) (Hqs : forall w l, qs w l ≡ₚ l).
Context (k : nat) (batch : bool) (v : hshape).
Hypothesis (Hk2 : 2 <= k) (Hku : (N.of_nat (2 * k) <= u32max)%N) (Hlp : num_check <= v_lp v) (Hldn : num_check <= v_ld v) (Hkp : k <= v_lp v).
Notation solid w := (no_fail w /\ provider_reliable P V ds n).

Definition item_ok (M : list N) (c : list (option nat)) (p : hitem * list nat) : Prop :=
  let '(it, ms) := p in
  hi_size it = length ms /\ NoDup ms /\ Forall (fun x => x < n) ms /\ stored c (hi_mem it) ms /\
  (2 * k <= length ms -> marks_le M (hi_marker it) ms /\ (hi_marker it <= fast16_max cfg)%N /\ length ms <= v_big v /\ 2 * length ms <= v_ld v).

Definition bigs (its : list (hitem * list nat)) : list nat := concat (filter (fun ms => 2 * k <= length ms) (its.*2)).

Record stack_ok (M : list N) (c : list (option nat)) (its : list (hitem * list nat)) : Prop := {
  so_item : Forall (item_ok M c) its;
  so_lay : lay (length c) its;
  so_bigs : NoDup (bigs its)
}.

Lemma bigs_cons it ms r : bigs ((it, ms) :: r) = (if decide (2 * k <= length ms) then ms else []) ++ bigs r.
Proof. unfold bigs. csimpl. rewrite filter_cons. case_decide; done. Qed.

Lemma lay_le hi its it ms : lay hi its -> (it, ms) ∈ its -> hi_mem it + length ms <= hi.
Proof.
  revert hi. induction its as [|[it' ms'] r IH]; intros hi; [intros _ H; by apply elem_of_nil in H|].
  intros [H1 H2] [[= -> ->]|H]%elem_of_cons; [done|]. specialize (IH _ H2 H). lia.
Qed.

Lemma lay_mono hi hi' its : hi <= hi' -> lay hi its -> lay hi' its.
Proof. destruct its as [|[it ms] r]; [done|]. intros H [H1 H2]. split; [lia|done]. Qed.

Lemma stack_pop M c x its : stack_ok M c (x :: its) -> stack_ok M c its.
Proof.
  intros [H1 H2 H3]. destruct x as [it ms]. constructor.
  - by inversion H1.
  - destruct H2 as [H H2]. eapply lay_mono; [|exact H2]. lia.
  - rewrite bigs_cons in H3. by apply NoDup_app in H3 as (_ & _ & ?).
Qed.

Lemma in_bigs its it ms x : (it, ms) ∈ its -> 2 * k <= length ms -> x ∈ ms -> x ∈ bigs its.
Proof.
  intros H1 H2 H3. unfold bigs. apply elem_of_concat. exists ms. split; [done|]. apply elem_of_list_filter. split; [done|]. apply elem_of_list_fmap. by exists (it, ms).
Qed.

(** Splitting the cluster at the top. *)
Lemma stack_split M c it ms its M' c' ms1 ms2 cm :
  stack_ok M c ((it, ms) :: its) -> 2 * k <= length ms -> length ms1 + length ms2 = length ms -> NoDup ms1 -> NoDup ms2 ->
  (forall x, x ∈ ms1 -> x ∈ ms) -> (forall x, x ∈ ms2 -> x ∈ ms) -> (ms1 ++ ms2 ≡ₚ ms \/ length ms2 = k) ->
  length c' = length c -> stored c' (hi_mem it) ms1 -> stored c' (hi_mem it + length ms1) ms2 ->
  (forall i, ~ (hi_mem it <= i < hi_mem it + length ms) -> c' !! i = c !! i) ->
  length M' = length M -> (cm <= fast16_max cfg)%N -> marks_le M' cm ms -> (forall x, x ∉ ms -> M' !! x = M !! x) ->
  stack_ok M' c' ((HI (length ms2) cm (hi_mem it + length ms1), ms2) :: (HI (length ms1) cm (hi_mem it), ms1) :: its).
Proof.
  intros [Hi Hl Hb] Hsz Hsum Hn1 Hn2 Hs1 Hs2 Hcase Hlc Hst1 Hst2 Hout HlM Hcm Hmk Hmout.
  apply Forall_cons in Hi as [(H1 & H2 & H3 & H4 & H5) Hi]. destruct (H5 Hsz) as (_ & _ & Hbig & Hld). destruct Hl as [Hl0 Hl].
  rewrite bigs_cons, decide_True in Hb by done. apply NoDup_app in Hb as (_ & Hdis & Hb).
  rewrite Forall_forall in H3.
  constructor.
  - apply Forall_cons. split; [|apply Forall_cons; split].
    + cbn [item_ok hi_size hi_mem hi_marker]. splits; auto. { apply Forall_forall. auto. } intros _. splits; auto; try lia. intros x Hx. by apply Hmk, Hs2.
    + cbn [item_ok hi_size hi_mem hi_marker]. splits; auto. { apply Forall_forall. auto. } intros _. splits; auto; try lia. intros x Hx. by apply Hmk, Hs1.
    + apply Forall_forall. intros [it' ms'] Hin. rewrite Forall_forall in Hi. destruct (Hi _ Hin) as (G1 & G2 & G3 & G4 & G5). pose proof (lay_le _ _ _ _ Hl Hin) as Hle. cbn [item_ok]. splits; auto.
      * eapply stored_same; [exact G4|]. intros i Hii. apply Hout. lia.
      * intros Hbig'. destruct (G5 Hbig') as (K1 & K2 & K3 & K4). splits; auto. intros x Hx. rewrite Hmout; [by apply K1|]. intros Hxm. apply (Hdis x Hxm). by eapply in_bigs.
  - cbn [lay hi_mem]. splits; [lia|lia|done].
  - rewrite !bigs_cons.
    assert (NoDup ((if decide (2 * k <= length ms2) then ms2 else []) ++ (if decide (2 * k <= length ms1) then ms1 else []))) as Hnd.
    { destruct Hcase as [Hp| ->]; [|rewrite decide_False by lia; by case_decide; [|constructor]].
      rewrite <- Hp in H2. apply NoDup_app in H2 as (_ & Hd & _). case_decide; case_decide; rewrite ?app_nil_r; simpl; auto; [|constructor].
      apply NoDup_app. splits; auto. intros x Hx Hx'. by apply (Hd x). }
    rewrite app_assoc. apply NoDup_app. splits; auto. intros x Hx. apply Hdis. apply elem_of_app in Hx as [Hx|Hx]; case_decide; try (by apply elem_of_nil in Hx); auto.
Qed.

(** ** The labels *)

Lemma write_labels_sat ms c bs bl (L : list (option Z)) off z : stored c off ms -> Forall (fun x => x < length L) ms ->
  Rsat none (forR (length ms) 0 (Some (Arr bl L)) (fun i lab => let! x := aget (Some (Arr bs c)) (off + i) in aset lab x z))
    (fun lab => exists L', lab = Some (Arr bl L') /\ length L' = length L /\ (forall x, x ∈ ms -> L' !! x = Some (Some z)) /\ (forall x, x ∉ ms -> L' !! x = L !! x)).
Proof.
  intros Hst Hlt. apply (forR_sat0 none (fun i lab => exists L', lab = Some (Arr bl L') /\ length L' = length L /\ (forall x, x ∈ take i ms -> L' !! x = Some (Some z)) /\ (forall x, x ∉ take i ms -> L' !! x = L !! x))).
  - exists L. rewrite take_0. splits; auto. intros x Hx. by apply elem_of_nil in Hx.
  - intros i lab Hi (L' & -> & Hl & Hin & Hout). destruct (lookup_lt_is_Some_2 ms i Hi) as [x Hx]. rewrite (stored_get _ _ _ _ _ _ Hst Hx). cbn [Rbind].
    assert (x < length L) as Hxl by (by eapply Forall_lookup_1 in Hlt). rewrite aset_cells by lia. cbn [Rsat]. eexists. split; [done|]. rewrite (take_S_r _ _ _ Hx). splits; [by rewrite insert_length| |].
    + intros y Hy. destruct (decide (x = y)) as [->|Hne]; [apply list_lookup_insert; lia|]. rewrite list_lookup_insert_ne by done. apply Hin.
      apply elem_of_app in Hy as [?|Hy]; [done|]. apply elem_of_list_singleton in Hy. congruence.
    + intros y Hy. rewrite not_elem_of_app, not_elem_of_cons in Hy. rewrite list_lookup_insert_ne by (intros ->; tauto). apply Hout. tauto.
  - rewrite firstn_all. auto.
Qed.

(** ** The invariant *)

Context (olds : list (list nat)) (L0 : list (option Z)) (starts : list (list nat)).
Hypothesis (Holds : NoDup (concat olds)).

Definition nested (its : list (hitem * list nat)) (done : list (list nat)) (L : list (option Z)) : Prop :=
  concat done ++ concat (its.*2) ≡ₚ concat olds /\
  Forall (fun d => d <> []) done /\
  Forall (fun d => exists o, o ∈ olds /\
     ((d ≡ₚ o /\ length o < 2 * k) \/ ((forall x, x ∈ d -> x ∈ o) /\ 2 * k <= length o /\ k <= length d < 2 * k))) done /\
  Forall (fun d => exists o, o ∈ olds /\ (d ≡ₚ o \/ ((forall x, x ∈ d -> x ∈ o) /\ 2 * k <= length o /\ k <= length d))) (its.*2) /\
  labelled L done /\ forall x, x ∉ concat done -> L !! x = L0 !! x.

Lemma nested_done it ms its done L L' :
  nested ((it, ms) :: its) done L -> ms <> [] -> length ms < 2 * k ->
  (forall x, x ∈ ms -> L' !! x = Some (Some (Z.of_nat (length done)))) -> (forall x, x ∉ ms -> L' !! x = L !! x) ->
  nested its (done ++ [ms]) L'.
Proof.
  intros (H1 & H2 & H3 & H4 & H5 & H6) Hne Hlt Hin Hout. csimpl in *. apply Forall_cons in H4 as [H4 H4'].
  assert (NoDup (concat done ++ ms ++ concat its.*2)) as Hnd by (by rewrite H1).
  assert (concat (done ++ [ms]) = concat done ++ ms) as Ec by (rewrite concat_app; simpl; by rewrite app_nil_r).
  split; [rewrite Ec, <- app_assoc; done|]. splits; auto.
  - apply Forall_app. split; [done|]. by apply Forall_singleton.
  - apply Forall_app. split; [done|]. apply Forall_singleton. destruct H4 as (o & Ho & [Hp|(Hs & Hb & Hk)]); exists o; (split; [done|]); [left|right; auto].
    split; [done|]. by rewrite <- Hp.
  - intros i d x Hd Hx. apply lookup_app_Some in Hd as [Hd|[Hd1 Hd2]].
    + rewrite Hout; [by eapply H5|]. apply NoDup_app in Hnd as (_ & Hdis & _). intros Hxm. apply (Hdis x); [|apply elem_of_app; by left].
      apply elem_of_concat. exists d. split; [done|]. by eapply elem_of_list_lookup_2.
    + apply list_lookup_singleton_Some in Hd2 as [Hi <-]. rewrite Hin by done. replace i with (length done) by lia. done.
  - intros x Hx. rewrite Ec, not_elem_of_app in Hx. rewrite Hout by tauto. apply H6. tauto.
Qed.

Lemma nested_skip it its done L : nested ((it, []) :: its) done L -> nested its done L.
Proof. intros (H1 & H2 & H3 & H4 & H5 & H6). csimpl in *. apply Forall_cons in H4 as [_ H4]. split; [done|]. splits; auto. Qed.

Lemma nested_split it ms its done L it1 it2 ms1 ms2 :
  nested ((it, ms) :: its) done L -> 2 * k <= length ms -> ms1 ++ ms2 ≡ₚ ms -> k <= length ms1 -> k <= length ms2 ->
  nested ((it2, ms2) :: (it1, ms1) :: its) done L.
Proof.
  intros (H1 & H2 & H3 & H4 & H5 & H6) Hsz Hp Hk1 Hk2'. csimpl in *. apply Forall_cons in H4 as [H4 H4']. split.
  - rewrite <- H1, <- Hp, (Permutation_app_comm ms1 ms2), <- !app_assoc. done.
  - splits; auto. destruct H4 as (o & Ho & Hor). apply Forall_cons. split; [|apply Forall_cons; split; [|done]]; exists o; (split; [done|]); right.
    + destruct Hor as [Hq|(Hs & Hb & _)].
      * splits; [|by rewrite <- Hq|done]. intros x Hx. rewrite <- Hq, <- Hp. apply elem_of_app. by right.
      * splits; auto. intros x Hx. apply Hs. rewrite <- Hp. apply elem_of_app. by right.
    + destruct Hor as [Hq|(Hs & Hb & _)].
      * splits; [|by rewrite <- Hq|done]. intros x Hx. rewrite <- Hq, <- Hp. apply elem_of_app. by left.
      * splits; auto. intros x Hx. apply Hs. rewrite <- Hp. apply elem_of_app. by left.
Qed.

(** The clusters made so far and those still on the stack follow the procedure. *)
Definition traced (its : list (hitem * list nat)) (done : list (list nat)) (L : list (option Z)) : Prop :=
  painted L0 L done /\
  forall rs, Forall2 (hier_tree k (if batch then k else 1) G D) (its.*2) rs -> hier_forest k (if batch then k else 1) G D starts (done ++ concat rs).

Lemma traced_done it ms its done L L' :
  traced ((it, ms) :: its) done L -> ms <> [] -> length ms < 2 * k ->
  (forall x, x ∈ ms -> L' !! x = Some (Some (Z.of_nat (length done)))) -> (forall x, x ∉ ms -> L' !! x = L !! x) ->
  traced its (done ++ [ms]) L'.
Proof.
  intros (H1 & H2) Hne Hlt Hin Hout. split.
  - intros x Hx. destruct (decide (x ∈ ms)) as [Hm|Hm].
    + right. exists (length done), ms. splits; [by rewrite list_lookup_middle|done| |by apply Hin]. rewrite drop_ge by (rewrite app_length; simpl; lia). apply not_elem_of_nil.
    + destruct (H1 x Hx) as [[Hn HL]|(i & d & Hd & Hxd & Hn & HL)].
      * left. rewrite concat_app, not_elem_of_app. simpl. rewrite app_nil_r. splits; auto. by rewrite Hout.
      * right. exists i, d. splits; auto; [by apply lookup_app_l_Some| |by rewrite Hout]. apply lookup_lt_Some in Hd.
        rewrite drop_app_le by lia. rewrite concat_app, not_elem_of_app. simpl. by rewrite app_nil_r.
  - intros rs Hrs. rewrite <- app_assoc. apply (H2 ([ms] :: rs)). csimpl. constructor; [|done]. by apply ht_small.
Qed.

Lemma traced_skip it its done L : traced ((it, []) :: its) done L -> traced its done L.
Proof. intros (H1 & H2). split; [done|]. intros rs Hrs. apply (H2 ([] :: rs)). csimpl. constructor; [apply ht_none|done]. Qed.

Lemma traced_split it ms its done L it1 it2 ms1 ms2 a b :
  traced ((it, ms) :: its) done L -> 2 * k <= length ms -> centers G D ms a b -> divided k (if batch then k else 1) (D a) (D b) ms a b ms1 ms2 ->
  traced ((it2, ms2) :: (it1, ms1) :: its) done L.
Proof.
  intros (H1 & H2) Hsz Hc Hd. split; [done|]. intros rs Hrs. csimpl in *. apply Forall2_cons_inv_l in Hrs as (r2 & rs' & Ht2 & Hrs & ->). apply Forall2_cons_inv_l in Hrs as (r1 & rs & Ht1 & Hrs & ->).
  simpl. rewrite (app_assoc r2). apply (H2 ((r2 ++ r1) :: rs)). constructor; [|done]. by eapply ht_split.
Qed.

Context (q T : nat) (w0 : world) (bc0 bl : nat) (W : nat).
Hypothesis (Hq : 1 <= q <= k) (Hlive : forall x, cnt x [bc0] <= cnt x (w_live w0)).

Definition run_ok (j : nat) (st : hstack * option (arr Z) * nat * hst) (w : world) : Prop :=
  let '(s, lab, cur, h) := st in
  wle w0 w /\ w_err w = w_err w0 /\ exists its M c bc cells L,
    (forall x, cnt x (w_live w) + cnt x [bc0] = cnt x [bc] + cnt x (w_live w0)) /\
    s = HS (length cells) (length its) (Some (Arr bc cells)) /\ length its <= length cells /\ stored cells 0 (rev (its.*1)) /\
    hok v h M c /\ length M = n /\ length c = n /\ stack_ok M c its /\
    lab = Some (Arr bl L) /\ length L = n /\
    (forall x z, L !! x = Some z -> L0 !! x = Some z \/ exists i, i < cur /\ z = Some (Z.of_nat i)) /\
    j + weight its <= W /\ cur * q + total its <= T /\ Forall (fun ms => ms = [] \/ q <= length ms) (its.*2) /\ (N.of_nat cur <= cl_max cfg)%N /\
    (few_duplicates n D (2 * k) -> exists done, length done = cur /\ nested its done L) /\
    (sorts qs -> exists done, length done = cur /\ traced its done L).

(** The call ended with an error. *)
Definition run_fail (w : world) (ec : ecode) (w' : world) : Prop :=
  e_code (w_err w') = ec /\
  ((ec = ER_NO_MEMORY /\ ~ no_fail w) \/ (ec = ER_DIST_SEARCH_ERROR /\ ~ solid w) \/
   (ec = ER_TOO_LARGE_PROBLEM /\ ((cl_max cfg * N.of_nat q < N.of_nat T)%N \/ (u64max < 2 * N.of_nat W + 16)%N))).

Definition run_end (t : ecode * (hstack * option (arr Z) * nat * hst)) (w : world) : Prop :=
  let '(ec, (s, lab, cur, h)) := t in
  wle w0 w /\ exists M c bc cells L,
    (forall x, cnt x (w_live w) + cnt x [bc0] = cnt x [bc] + cnt x (w_live w0)) /\ s_cl s = Some (Arr bc cells) /\
    hok v h M c /\ lab = Some (Arr bl L) /\ length L = n /\
    (forall x z, L !! x = Some z -> L0 !! x = Some z \/ exists i, i < cur /\ z = Some (Z.of_nat i)) /\
    ((ec = ER_OK /\ w_err w = w_err w0 /\ (N.of_nat cur <= cl_max cfg)%N /\ cur * q <= T /\
      (few_duplicates n D (2 * k) -> exists news, length news = cur /\ refined k olds news /\ labelled L news /\ forall x, x ∉ concat olds -> L !! x = L0 !! x) /\
      (sorts qs -> exists news, length news = cur /\ hier_forest k (if batch then k else 1) G D starts news /\ painted L0 L news)) \/
     (ec <> ER_OK /\ run_fail w0 ec w)).

Lemma stored_resize {A} (c : list (option A)) ms m : stored c 0 ms -> length ms <= m -> stored (resize m c) 0 ms.
Proof.
  intros H Hm. destruct (decide (ms = [])) as [->|Hne]; [apply stored_nil|]. apply (stored_bound _ _ _ H) in Hne as Hb. apply filled_holds, filled_resize; [|done].
  by apply (stored_filled c 0 ms).
Qed.

Lemma Msat_check_capacity st w j s lab cur h : st = (s, lab, cur, h) -> run_ok j st w -> 0 < s_items s ->
  Msat none (check_capacity s) w (fun '(ec, s') w' =>
    (ec = ER_OK /\ run_ok j (s', lab, cur, h) w' /\ s_items s' = s_items s /\ s_items s' < s_cap s') \/ (ec <> ER_OK /\ run_end (ec, (s', lab, cur, h)) w')).
Proof.
  intros -> Hr Hit. pose proof Hr as (L & E & its & M & c & bc & cells & Lb & Hb & -> & Hcap & Hst & Hok & HlM & Hlc & Hso & -> & HlL & HL0 & Hw & Ht & Hmin & Hcm & Hsp & Htr).
  cbn [s_items s_cap s_cl] in *. unfold check_capacity. cbn [s_items s_cap s_cl]. case_decide as Hfull.
  2:{ apply Msat_ret. left. splits; auto. cbn. lia. }
  assert (forall ec msg f l w1, ec <> ER_OK -> wle w w1 -> own w1 [] w -> ((ec = ER_NO_MEMORY /\ ~ no_fail w0) \/ (ec = ER_DIST_SEARCH_ERROR /\ ~ solid w0) \/
    (ec = ER_TOO_LARGE_PROBLEM /\ ((cl_max cfg * N.of_nat q < N.of_nat T)%N \/ (u64max < 2 * N.of_nat W + 16)%N))) ->
    w_err w1 = ErrSt ec msg f l -> run_end (ec, (HS (length cells) (length its) (Some (Arr bc cells)), Some (Arr bl Lb), cur, h)) w1) as Hend.
  { intros ec msg f l w1 Hec L1 O1 Hf E1. split; [wl|]. exists M, c, bc, cells, Lb. splits; auto; [blk|]. right. split; [done|]. split; [by rewrite E1|done]. }
  destruct (N.ltb_spec u64max (N.of_nat (length cells + 16 + length cells / 16))) as [Hbig|Hsmall].
  - apply Msat_bind, Msat_make_error__. intros w1 L1 O1 E1 _. apply Msat_ret. right. split; [done|]. eapply Hend; eauto. right. right. split; [done|]. right.
    pose proof (weight_items its). assert (length cells / 16 <= length cells) by (apply Nat.div_le_upper_bound; lia). lia.
  - apply Msat_bind, Msat_realloc_arr.
    + specialize (Hb bc). specialize (Hlive bc). simpl in Hb, Hlive. rewrite (decide_True (P := bc = bc)) in Hb by done. lia.
    + intros w1 L1 O1 E1 _ Hnf. apply Msat_bind, Msat_make_error__. intros w2 L2 O2 E2 _. apply Msat_ret. right. split; [done|]. eapply Hend; [done|wl|blk| |exact E2]. left. split; [done|].
      intros HF. apply Hnf. by eapply no_fail_wle.
    + intros w1 bc' L1 O1 E1 _. apply Msat_ret. left. split; [done|].
      assert (length (resize (length cells + 16 + length cells / 16) cells) = length cells + 16 + length cells / 16) as Hrl.
      { unfold resize. rewrite app_length, take_length. unfold fresh. rewrite replicate_length. lia. }
      split; [|cbn; lia]. split; [wl|]. split; [congruence|]. exists its, M, c, bc', (resize (length cells + 16 + length cells / 16) cells), Lb. rewrite Hrl. splits; auto.
      * intros x. specialize (Hb x). specialize (O1 x). lia.
      * lia.
      * apply stored_resize; [done|]. rewrite rev_length, fmap_length. lia.
Qed.

Lemma Msat_run_step j st w : j < W + 1 -> run_ok j st w ->
  Msat none (run_step cfg P qs ds k batch st) w (fun r w' => match r with inl st' => run_ok (S j) st' w' | inr t => run_end t w' end).
Proof.
  intros Hj Hr. destruct st as [[[s lab] cur] h]. unfold run_step. case_decide as Hit.
  2:{ apply Msat_ret. destruct Hr as (L & E & its & M & c & bc & cells & Lb & Hb & -> & Hcap & Hst & Hok & HlM & Hlc & Hso & -> & HlL & HL0 & Hw & Ht & Hmin & Hcm & Hsp & Htr).
      cbn [s_items] in Hit. assert (its = []) as -> by (destruct its; [done|simpl in Hit; lia]).
      split; [done|]. exists M, c, bc, cells, Lb. splits; auto. left. splits; auto; [lia| |].
      - intros Hdup. destruct (Hsp Hdup) as (done & Hd & H1 & H2 & H3 & _ & H5 & H6).
        simpl in H1. rewrite app_nil_r in H1. exists done. split; [done|]. split; [by constructor|]. split; [done|]. intros x Hx. apply H6. by rewrite H1.
      - intros Hw'. destruct (Htr Hw') as (done & Hd & H1 & H2). exists done. splits; auto. specialize (H2 [] ltac:(constructor)). simpl in H2. by rewrite app_nil_r in H2. }
  apply Msat_bind. eapply Msat_mono; [by eapply (Msat_check_capacity _ w j s lab cur h)|]. intros [ec s'] w1 [(-> & Hr' & Hits & Hc)|(Hec & He)].
  2:{ rewrite decide_True by done. by apply Msat_ret. }
  rewrite decide_False by tauto. clear Hr w. rename w1 into w. rewrite <- Hits in Hit. clear Hits s. rename s' into s.
  destruct Hr' as (L & E & its & M & c & bc & cells & Lb & Hb & -> & Hcap & Hst & Hok & HlM & Hlc & Hso & -> & HlL & HL0 & Hw & Ht & Hmin & Hcm & Hsp & Htr).
  cbn [s_items s_cap s_cl] in *. destruct its as [|[it ms] its]; [simpl in Hit; lia|]. rewrite weight_cons in Hw. rewrite total_cons in Ht. csimpl in Hcap. csimpl in Hst. csimpl in Hmin. cbn [length] in *. replace (S (length its) - 1) with (length its) by lia.
  apply stored_app in Hst as [Hst Htop]. rewrite rev_length, fmap_length in Htop. simpl in Htop.
  assert (aget (Some (Arr bc cells)) (length its) = Ok it) as Hget. { specialize (Htop 0 it eq_refl). rewrite Nat.add_0_r in Htop. by apply aget_cells. }
  apply Msat_bind, Msat_lift. rewrite Hget. cbn [Rsat]. pose proof (so_item _ _ _ Hso) as Hi. apply Forall_cons in Hi as [(Hsize & Hnd & Hlt & Hms & Hbig) _].
  rewrite Hsize. rewrite wrapN_small by done. apply Forall_cons in Hmin as [Hm1 Hmin].
  case_decide as Hsmall.
  - case_decide as Hpos.
    + case_decide as Hmax.
      * apply Msat_bind, Msat_make_error__. intros w2 L2 O2 E2 _. apply Msat_ret. split; [wl|]. exists M, c, bc, cells, Lb. splits; auto; [blk|]. right. split; [done|]. split; [by rewrite E2|].
        right. right. split; [done|]. left. destruct Hm1 as [->|Hm1]; [simpl in Hpos; lia|]. nia.
      * destruct Hok as (Hp1 & Hp2 & Hdd & Hmk & He1 & He2 & Hstore). rewrite Hstore. apply Msat_bind, Msat_lift.
        eapply Rsat_mono; [apply write_labels_sat; [done|]|]. { eapply Forall_impl; [exact Hlt|]. simpl. lia. }
        intros lab (L' & -> & HlL' & HLin & HLout). apply Msat_ret. split; [done|]. split; [done|]. exists its, M, c, bc, cells, L'. splits; auto.
        -- lia.
        -- split; auto. splits; auto.
        -- by eapply stack_pop.
        -- by rewrite HlL'.
        -- intros x z Hz. destruct (decide (x ∈ ms)) as [Hx|Hx].
           ++ rewrite HLin in Hz by done. injection Hz as <-. right. exists cur. split; [lia|done].
           ++ rewrite HLout in Hz by done. destruct (HL0 _ _ Hz) as [?|(i & ? & ->)]; [by left|]. right. exists i. split; [lia|done].
        -- lia.
        -- destruct Hm1 as [->|Hm1]; [simpl in Hpos; lia|]. lia.
        -- lia.
        -- intros Hdup. destruct (Hsp Hdup) as (done & Hd & Hnest). exists (done ++ [ms]). split; [rewrite app_length; simpl; lia|].
           eapply nested_done; eauto; [|by rewrite Hd]. intros ->. simpl in Hpos. lia.
        -- intros Hw'. destruct (Htr Hw') as (done & Hd & Hnest). exists (done ++ [ms]). split; [rewrite app_length; simpl; lia|].
           eapply traced_done; eauto; [|by rewrite Hd]. intros ->. simpl in Hpos. lia.
    + assert (ms = []) as -> by (destruct ms; [done|simpl in Hpos; lia]). apply Msat_ret. split; [done|]. split; [done|]. exists its, M, c, bc, cells, Lb. splits; auto.
      * lia.
      * by eapply stack_pop.
      * simpl in Hw. lia.
      * intros Hdup. destruct (Hsp Hdup) as (done & Hd & Hnest). exists done. split; [done|]. by eapply nested_skip.
      * intros Hw'. destruct (Htr Hw') as (done & Hd & Hnest). exists done. split; [done|]. by eapply traced_skip.
  - destruct (Hbig ltac:(lia)) as (Hmk & Hmf & Hvb & Hvl). pose proof (so_lay _ _ _ Hso) as [Hlay _].
    apply Msat_bind. assert (it = HI (length ms) (hi_marker it) (hi_mem it)) as Eit by (destruct it; simpl in *; by subst). rewrite Eit at 1.
    eapply Msat_mono; [by apply (Msat_break cfg P V ds n G D Hcfg HP HG qs Hqs v h M c ms (hi_marker it) (hi_mem it) k batch w); auto; lia|].
    intros [[ec ii] h'] w2 (L2 & O2 & M' & c' & Hok' & [(-> & E2 & ms1 & ms2 & cm & -> & Hsum & Hk1 & Hk2' & Hn1 & Hn2 & Hs1 & Hs2 & Hcase & Hlc' & Hst1 & Hst2 & Hout & HlM' & Hcm' & Hmk' & Hmout & Hdiv)|(Hec & -> & Hf)]).
    + apply Msat_bind, Msat_lift. rewrite aset_cells by lia. cbn [Rbind]. rewrite aset_cells by (rewrite insert_length; lia). cbn [Rsat].
      apply Msat_ret. split; [wl|]. split; [congruence|].
      exists ((HI (length ms2) cm (hi_mem it + length ms1), ms2) :: (HI (length ms1) cm (hi_mem it), ms1) :: its), M', c', bc, (<[S (length its):=Some (HI (length ms2) cm (hi_mem it + length ms1))]> (<[length its:=Some (HI (length ms1) cm (hi_mem it))]> cells)), Lb.
      rewrite !weight_cons, !total_cons. csimpl. rewrite !insert_length. splits; auto.
      * blk.
      * f_equal. lia.
      * rewrite <- app_assoc. simpl. pose proof (stored_snoc _ _ _ (HI (length ms1) cm (hi_mem it)) Hst) as Ha. rewrite rev_length, fmap_length in Ha. specialize (Ha ltac:(simpl; lia)). simpl in Ha.
        pose proof (stored_snoc _ _ _ (HI (length ms2) cm (hi_mem it + length ms1)) Ha) as Hb'. rewrite app_length, rev_length, fmap_length, insert_length in Hb'. simpl in Hb'. rewrite Nat.add_1_r in Hb'. specialize (Hb' ltac:(lia)).
        by rewrite <- app_assoc in Hb'.
      * lia.
      * lia.
      * eapply stack_split; eauto; [lia|]. destruct Hcase as [?|[? _]]; auto.
      * lia.
      * lia.
      * apply Forall_cons. split; [right; lia|]. apply Forall_cons. split; [right; lia|done].
      * intros Hdup. destruct (Hsp Hdup) as (done & Hd & Hnest). exists done. split; [done|]. eapply nested_split; eauto; [lia|].
        destruct Hcase as [?|(_ & a & Ha & Hz)]; [done|]. exfalso. rewrite Forall_forall in Hlt. assert (length ms < 2 * k); [|lia]. apply (Hdup a); auto. apply Forall_forall. auto.
      * intros Hw'. destruct (Htr Hw') as (done & Hd & Hnest). destruct (Hdiv Hw') as (a & b & Hcen & Hdv). exists done. split; [done|]. eapply traced_split; eauto. lia.
    + apply Msat_ret. split; [wl|]. exists M', c', bc, cells, Lb. splits; auto; [blk|]. right. split; [done|]. destruct Hf as [Hf1 Hf2]. split; [done|].
      destruct Hf2 as [[-> Hf2]|[-> Hf2]]; [left|right; left]; (split; [done|]); intros HS; apply Hf2; [by eapply no_fail_wle|by eapply solid_wle].
Qed.

Lemma Msat_run_loop fuel st w (Q : _ -> world -> Prop) : run_ok 0 st w -> W + 1 <= fuel -> (forall t w', run_end t w' -> Q (inr t) w') ->
  Msat none (loopM fuel 0 st (fun _ => run_step cfg P qs ds k batch)) w Q.
Proof.
  intros H0 Hf HQ. apply (loopM_sat none (fun j st w => run_ok j st w) run_end).
  - done.
  - intros j st' w' Hj Hr. destruct (decide (j < W + 1)) as [Hlt|Hge]; [by apply Msat_run_step|].
    destruct st' as [[[s lab] cur] h]. destruct Hr as (_ & _ & its & ? & ? & ? & ? & ? & _ & _ & _ & _ & _ & _ & _ & _ & _ & _ & _ & Hw & _). lia.
  - intros st' w' Hr. destruct st' as [[[s lab] cur] h]. destruct Hr as (_ & _ & its & ? & ? & ? & ? & ? & _ & _ & _ & _ & _ & _ & _ & _ & _ & _ & _ & Hw & _). lia.
  - done.
Qed.
End Run.
