(** Finding the centers of a cluster and sorting its members by distance. *)

From stdpp Require Import prelude list sorting.
From Coq Require Import NArith ZArith.
From Verif Require Import Base World Mem Float FloatFacts Spi Options Digraph DigraphRep DigraphOps Arrays NngGraph NngStage NngEst Hier HierSpec HierDiv.

(** What is required of the distances: they are not negative and no NaN, and what
    is not farther from a point than the point itself is at distance zero. *)
Record dist_sane (G : geometry) (D : dist_fun) (n : nat) : Prop := {
  dsn_nonneg : forall x y, x < n -> y < n -> d_nonneg (D x y);
  dsn_zero : forall x y, x < n -> y < n -> nearer G x y x = true -> D x y = d_zero
}.

Lemma nonneg_gt x : d_nonneg x -> d_gt x d_minus1 = true.
Proof. destruct x as [[]|[]| |[] m e]; try done. Qed.

Lemma stored_filled {A} (c : list (option A)) off ms : stored c off ms -> off + length ms <= length c -> filled (drop off c) ms.
Proof.
  intros H Hl. exists (drop (off + length ms) c). apply list_eq. intros i. rewrite lookup_drop. destruct (decide (i < length ms)) as [Hi|Hi].
  - rewrite lookup_app_l by (by rewrite fmap_length). rewrite list_lookup_fmap. destruct (lookup_lt_is_Some_2 ms i Hi) as [x Hx]. rewrite Hx. simpl. by apply H.
  - rewrite lookup_app_r by (rewrite fmap_length; lia). rewrite lookup_drop, fmap_length. f_equal. lia.
Qed.

(** ** Where the search starts *)

Lemma check_step_pos size : 2 <= check_step size.
Proof. unfold check_step. case_decide; lia. Qed.

Lemma check_count_ok cfg size : (65535 <= fast16_max cfg)%N -> 0 < size ->
  1 <= check_count cfg size <= num_check /\ forall i, i < check_count cfg size -> i * check_step size < size.
Proof.
  intros HF Hs. pose proof (check_step_pos size) as Hp. set (st := check_step size) in *.
  assert ((size - 1) / st <= 200) as Hq.
  { apply Nat.div_le_upper_bound; [lia|]. unfold st, check_step, num_check. pose proof (Nat.div_mod_eq size 100). pose proof (Nat.mod_upper_bound size 100 ltac:(lia)). case_decide; lia. }
  unfold check_count. fold st. rewrite wrapN_small by lia. set (q := (size - 1) / st) in *.
  assert (st * q <= size - 1) as Hle by (apply Nat.mul_div_le; lia).
  assert (forall i, i <= q -> i * st < size) as Hi. { intros i Hi. assert (i * st <= q * st) by (by apply Nat.mul_le_mono_r). lia. }
  case_decide; (split; [unfold num_check in *; lia|]); intros i Hii; apply Hi; unfold num_check in *; lia.
Qed.

Definition marked_count (M : list N) (cm : N) (ms : list nat) : nat := length (filter (fun x => M !! x = Some cm) ms).

Lemma marked_count_le M cm ms : marked_count M cm ms <= length ms.
Proof. apply filter_length. Qed.

Lemma marked_count_add M cm ms x v : NoDup ms -> x ∈ ms -> M !! x = Some v -> v <> cm -> marked_count (<[x:=cm]> M) cm ms = S (marked_count M cm ms).
Proof.
  intros Hnd Hx Hv Hne. unfold marked_count. apply lookup_lt_Some in Hv as Hl. induction ms as [|y ms IH]; [by apply elem_of_nil in Hx|].
  apply NoDup_cons in Hnd as [Hy Hnd]. rewrite !filter_cons. destruct (decide (x = y)) as [->|Hxy].
  - rewrite decide_True by (by apply list_lookup_insert). rewrite decide_False by (rewrite Hv; congruence). simpl. f_equal. f_equal.
    clear -Hy. induction ms as [|z ms IH]; [done|]. apply not_elem_of_cons in Hy as [H1 H2]. rewrite !filter_cons, list_lookup_insert_ne by done. by rewrite IH.
  - rewrite list_lookup_insert_ne by done. apply elem_of_cons in Hx as [?|Hx]; [done|]. specialize (IH Hnd Hx). case_decide; simpl; lia.
Qed.

Lemma marked_count_pos M cm ms x : x ∈ ms -> M !! x = Some cm -> 1 <= marked_count M cm ms.
Proof. intros Hx Hm. unfold marked_count. assert (x ∈ filter (fun x => M !! x = Some cm) ms) as H by (by apply elem_of_list_filter). destruct (filter _ ms); [by apply elem_of_nil in H|simpl; lia]. Qed.

Section Find.
Context (cfg : config) (P : provider) (V : pview P) (ds : p_ds P) (n : nat) (G : geometry) (D : dist_fun).
Hypothesis (Hcfg : config_ok cfg) (HP : provider_ok P V ds n G D) (HG : dist_sane G D n).
Notation solid w := (no_fail w /\ provider_reliable P V ds n).

Lemma Msat_mx_init len s S w : argcells s len S -> S <> [] -> Forall (fun x => x < n) S -> NoDup S ->
  Msat none (mx_init P ds len s) w (fun r w' => wle w w' /\ w_err w' = w_err w /\
    match r with
    | None => own w' [] w /\ ~ solid w
    | Some o => own w' (mx_blk V o) w /\ mx_good V o /\ mx_set V o = S
    end).
Proof.
  intros Hs Hne Hlt Hnd. unfold mx_init. pose proof (argcells_length _ _ _ Hs) as Hl.
  apply Msat_bind, Msat_lift. eapply Rsat_mono; [by apply read_idx_arg|]. intros q (H1 & H2 & _).
  assert (search_set n q) as Hq by (unfold search_set; rewrite H2, H1; auto).
  pose proof (pk_mx_init _ _ _ _ _ _ HP w q Hq) as H. unfold Msat in *. destruct (p_mx_init P ds q w) as [[r w']|u] eqn:E; [|by destruct H].
  simpl in *. destruct r as [o|].
  - destruct H as ((L & O & Er) & Hg & Hset). rewrite H2 in Hset. auto.
  - destruct H as (L & O & Er). splits; auto. intros [F Hr]. pose proof (rel_mx_init _ _ _ _ Hr w q Hq F) as Hx. unfold Msat in Hx. rewrite E in Hx. by apply Hx.
Qed.

Lemma Msat_max_dist o lenq q Q bi ci bd cd w : mx_good V o -> (forall x, cnt x (mx_blk V o) <= cnt x (w_live w)) ->
  argcells q lenq Q -> Q <> [] -> Forall (fun x => x < n) Q -> lenq <= length ci -> lenq <= length cd ->
  Msat none (max_dist P o lenq q (Some (Arr bi ci)) (Some (Arr bd cd))) w (fun r w' => wle w w' /\ own w' [] w /\ w_err w' = w_err w /\
    match r with
    | None => ~ solid w
    | Some (outi, outd) => exists is dd, far_ok G D (mx_set V o) Q is dd /\ written is (Some (Arr bi ci)) outi /\ written dd (Some (Arr bd cd)) outd
    end).
Proof.
  intros Hg Hb Hq Hne Hlt Hci Hcd. unfold max_dist. pose proof (argcells_length _ _ _ Hq) as Hl.
  apply Msat_bind, Msat_lift. eapply Rsat_mono; [by apply read_idx_arg|]. intros qq (H1 & H2 & _).
  assert (query_list n qq) as Hql by (unfold query_list; rewrite H2, H1; auto).
  pose proof (pk_mx_get _ _ _ _ _ _ HP w o qq Hg Hql Hb) as H. apply Msat_bind. unfold Msat at 1. unfold Msat at 1 in H. destruct (p_mx_get P o qq w) as [[r w']|u] eqn:E; [|by destruct H].
  simpl in *. destruct H as ((L & O & Er) & H). destruct r as [[is dd]|].
  2:{ apply Msat_ret. splits; auto. intros [F Hr]. pose proof (rel_mx_get _ _ _ _ Hr w o qq Hg Hql F) as Hx. unfold Msat in Hx. rewrite E in Hx. by apply Hx. }
  rewrite H2 in H. pose proof H as [Hf1 Hf2]. apply Forall2_length in Hf1. apply Forall2_length in Hf2. rewrite zip_with_length in Hf2.
  apply Msat_bind, Msat_lift. eapply Rsat_mono; [apply write_out_sat; lia|]. intros oi Hoi.
  apply Msat_bind, Msat_lift. eapply Rsat_mono; [apply write_out_sat; lia|]. intros od Hod. apply Msat_ret. splits; auto. eauto.
Qed.

Lemma Msat_mx_close o w : mx_good V o -> (forall x, cnt x (mx_blk V o) <= cnt x (w_live w)) ->
  Msat none (p_mx_close P o) w (fun r w' => wle w w' /\ w_err w' = w_err w /\ (forall x, cnt x (w_live w) = cnt x (mx_blk V o) + cnt x (w_live w')) /\ (r = false -> ~ solid w)).
Proof.
  intros Hg Hb. pose proof (pk_mx_close _ _ _ _ _ _ HP w o Hg Hb) as H. unfold Msat in *. destruct (p_mx_close P o w) as [[r w']|u] eqn:E; [|by destruct H].
  simpl in *. destruct H as (L & Er & O). splits; auto. intros -> [F Hr]. pose proof (rel_mx_close _ _ _ _ Hr w o Hg F) as Hx. unfold Msat in Hx. by rewrite E in Hx.
Qed.

(** [b] is a member farthest from the member [a]. *)
Definition far_pair (ms : list nat) (a b : nat) : Prop := a ∈ ms /\ b ∈ ms /\ forall y, y ∈ ms -> nearer G a y b = true.

(** Marks while the centers are sought. *)
Definition find_marks (M0 M : list N) (cm : N) (ms : list nat) : Prop :=
  length M = length M0 /\ marks_le M cm ms /\ forall x, x ∉ ms -> M !! x = M0 !! x.

Lemma find_marks_add M0 M cm ms x : find_marks M0 M cm ms -> x ∈ ms -> x < length M0 -> find_marks M0 (<[x:=cm]> M) cm ms.
Proof.
  intros (H1 & H2 & H3) Hx Hl. split; [by rewrite insert_length|]. split.
  - intros y Hy. destruct (decide (x = y)) as [->|Hn].
    + exists cm. rewrite list_lookup_insert by lia. split; [done|lia].
    + rewrite list_lookup_insert_ne by done. by apply H2.
  - intros y Hy. rewrite list_lookup_insert_ne by (intros <-; done). by apply H3.
Qed.

Definition cc_ok (ms : list nat) (md : double) (cc : option (nat * nat)) : Prop :=
  match cc with None => md = d_minus1 | Some (a, b) => md = D a b /\ far_pair ms a b end.

(** The marked members. *)
Definition seen_is (M : list N) (cm : N) (ms S : list nat) : Prop := forall x, x ∈ ms -> (M !! x = Some cm <-> x ∈ S).

Lemma seen_is_add M cm ms S x : seen_is M cm ms S -> x < length M -> seen_is (<[x:=cm]> M) cm ms (x :: S).
Proof.
  intros H Hx y Hy. rewrite elem_of_cons. destruct (decide (y = x)) as [->|Hn]; [rewrite list_lookup_insert by done; tauto|]. rewrite list_lookup_insert_ne by done. rewrite (H y Hy). tauto.
Qed.

Lemma center_loop ms S M0 M cm md cc Q is dd bp1 c1 bp2 c2 bd cd bm lp :
  NoDup ms -> Forall (fun x => x < n) ms -> length M0 = n -> find_marks M0 M cm ms -> seen_is M cm ms S -> cc_ok ms md cc ->
  Q <> [] -> Forall (fun x => x ∈ ms) Q -> far_ok G D ms Q is dd -> filled c1 Q -> filled c2 is -> filled cd dd -> length c1 = lp ->
  Rsat none (forR (length Q) 0 (md, cc, farr bm M, Some (Arr bp1 c1), 0) (center_step cm (Some (Arr bp2 c2)) (Some (Arr bd cd))))
    (fun '(md', cc', mk, p1, wr) => cc_ok ms md' cc' /\ cc' <> None /\ exists M' c1' Q' S', mk = farr bm M' /\ find_marks M0 M' cm ms /\
       p1 = Some (Arr bp1 c1') /\ length c1' = lp /\ filled c1' Q' /\ length Q' = wr /\ wr <= length Q /\ Forall (fun x => x ∈ ms) Q' /\
       marked_count M' cm ms = marked_count M cm ms + wr /\ seen_is M' cm ms S' /\ forall r, seek G D ms Q' S' cc' r -> seek G D ms Q S cc r).
Proof.
  intros Hnd Hlt HM0 HM HS Hcc HQ HQms Hfar Hc1 Hc2 Hcd Hl1.
  eapply Rsat_mono; [apply (forR_sat none (fun i '(md', cc', mk, p1, wr) => cc_ok ms md' cc' /\ (0 < i -> cc' <> None) /\ exists M' c1' Q' S', mk = farr bm M' /\ find_marks M0 M' cm ms /\
       p1 = Some (Arr bp1 c1') /\ length c1' = lp /\ filled c1' Q' /\ length Q' = wr /\ wr <= i /\ Forall (fun x => x ∈ ms) Q' /\
       (forall j x, i <= j -> Q !! j = Some x -> c1' !! j = Some (Some x)) /\
       marked_count M' cm ms = marked_count M cm ms + wr /\ seen_is M' cm ms S' /\ forall r, seek G D ms (drop i Q ++ Q') S' cc' r -> seek G D ms Q S cc r))|].
  - splits; auto; [lia|]. exists M, c1, [], S. splits; auto; [apply filled_nil| |]. { intros j x _ Hj. by eapply filled_lookup. } by rewrite drop_0, app_nil_r.
  - intros i [[[[md' cc'] mk] p1] wr] Hi (Hcc' & _ & M' & c1' & Q' & S' & -> & HM' & -> & Hl1' & Hf' & HlQ' & Hwr & HQ' & Hrest & Hcount & HS' & Hseek).
    destruct (lookup_lt_is_Some_2 Q i) as [q Hq]; [lia|]. destruct Hfar as [Hfar1 Hfar2].
    destruct (Forall2_lookup_l _ _ _ _ _ Hfar1 Hq) as (x & Hx & Hxms & Hxfar).
    destruct (Forall2_lookup_l _ _ _ i (q, x) Hfar2) as (d & Hd & Ed); [by apply lookup_zip_with_Some; eauto|]. cbn in Ed.
    assert (q ∈ ms) as Hqms by (by eapply Forall_lookup_1 in HQms). assert (q < n) as Hqn by (by eapply Forall_forall in Hlt). assert (x < n) as Hxn by (by eapply Forall_forall in Hlt).
    unfold center_step. rewrite (aget_cells _ cd i d) by (by eapply filled_lookup). cbn [Rbind].
    rewrite (aget_cells _ c1' i q) by (apply Hrest; [lia|done]). rewrite (aget_cells _ c2 i x) by (by eapply filled_lookup). cbn [Rbind].
    eapply Rsat_bind_mono with (Q := fun '(md2, cc2) => cc_ok ms md2 cc2 /\ cc2 <> None /\ cc2 = match cc' with Some (a, b) => if d_gt (D q x) (D a b) then Some (q, x) else cc' | None => Some (q, x) end).
    { assert (cc' = None -> d_gt d md' = true) as Hno. { intros ->. simpl in Hcc'. subst md' d. apply nonneg_gt. by apply (dsn_nonneg _ _ _ HG). }
      destruct (d_gt d md') eqn:Eg; cbn [Rsat].
      - splits; [done|done|]. destruct cc' as [[a' b']|]; [|done]. destruct Hcc' as [-> _]. subst d. by rewrite Eg.
      - destruct cc' as [[a' b']|]; [|by discriminate Hno]. splits; [done|done|]. destruct Hcc' as [-> _]. subst d. by rewrite Eg. }
    assert (drop i Q = q :: drop (Datatypes.S i) Q) as HdQ by (by apply drop_S).
    intros [md2 cc2] (Hcc2 & Hcc2' & Ecc2). pose proof HM' as (HlM' & Hmle & Hmout). destruct (Hmle x Hxms) as (v & Hv & Hvle).
    rewrite (aget_farr _ _ _ _ Hv). cbn [Rbind]. case_decide as Hvc.
    + rewrite aset_farr by lia. cbn [Rbind]. pose proof (filled_length _ _ (Hc1)) as HlQ. rewrite aset_cells by lia. cbn [Rbind Rsat]. splits; auto.
      exists (<[x:=cm]> M'), (<[wr:=Some x]> c1'), (Q' ++ [x]), (x :: S'). splits; auto.
      * apply find_marks_add; auto. lia.
      * by rewrite insert_length.
      * rewrite <- HlQ'. apply filled_snoc; [done|]. lia.
      * rewrite app_length. simpl. lia.
      * lia.
      * apply Forall_app. split; [done|]. by apply Forall_singleton.
      * intros j y Hj Hy. rewrite list_lookup_insert_ne by lia. apply Hrest; [lia|done].
      * rewrite (marked_count_add _ _ _ _ v); auto. lia.
      * apply seen_is_add; [done|lia].
      * intros r Hr. apply Hseek. rewrite HdQ. assert (x ∉ S') as HxS by (rewrite <- (HS' x Hxms), Hv; congruence).
        simpl. apply (seek_next _ _ _ q x); auto. rewrite !decide_False, <- Ecc2, <- app_assoc by done. done.
    + cbn [Rsat]. splits; auto. exists M', c1', Q', S'. splits; auto.
      * intros j y Hj Hy. apply Hrest; [lia|done].
      * intros r Hr. apply Hseek. rewrite HdQ. assert (x ∈ S') as HxS by (rewrite <- (HS' x Hxms), Hv; f_equal; destruct (decide (v = cm)); tauto).
        simpl. apply (seek_next _ _ _ q x); auto. rewrite !decide_True, <- Ecc2, app_nil_r by done. done.
  - intros [[[[md' cc'] mk] p1] wr] (H1 & H2 & M' & c1' & Q' & S' & H3 & H4 & H5 & H6 & H7 & H8 & H9 & H10 & _ & H11 & H12 & H13). splits; auto.
    + apply H2. destruct Q; [done|simpl; lia].
    + exists M', c1', Q', S'. splits; auto. intros r Hr. apply H13. rewrite drop_ge by lia. done.
Qed.

Lemma check_count_start ms : (65535 <= fast16_max cfg)%N -> 0 < length ms ->
  omap (fun i => ms !! (i * check_step (length ms))) (seq 0 (check_count cfg (length ms))) = start_points ms.
Proof.
  intros HF Hs. destruct (check_count_ok cfg (length ms) HF Hs) as [Hc _]. pose proof (check_step_pos (length ms)) as Hp.
  unfold start_points. assert (Nat.max 2 (length ms / 100) = check_step (length ms)) as -> by (unfold check_step, num_check; case_decide; lia).
  set (st := check_step (length ms)) in *. assert (check_count cfg (length ms) = num_check \/ length ms <= check_count cfg (length ms) * st) as Hor.
  { unfold check_count. fold st. assert ((length ms - 1) / st <= 200) as Hq.
    { apply Nat.div_le_upper_bound; [lia|]. unfold st, check_step, num_check. pose proof (Nat.div_mod_eq (length ms) 100). pose proof (Nat.mod_upper_bound (length ms) 100 ltac:(lia)). case_decide; lia. }
    rewrite wrapN_small by lia. case_decide; [by left|right]. pose proof (Nat.div_mod_eq (length ms - 1) st). pose proof (Nat.mod_upper_bound (length ms - 1) st ltac:(lia)).
    set (q := (length ms - 1) / st) in *. rewrite Nat2N.id || idtac. nia. }
  replace 100 with (check_count cfg (length ms) + (100 - check_count cfg (length ms))) at 1 by (unfold num_check in Hc; lia).
  rewrite seq_app, omap_app. simpl. rewrite <- (app_nil_r (omap _ _)) at 1. f_equal. symmetry.
  destruct Hor as [->|Hor]; [done|]. assert (forall k i, check_count cfg (length ms) <= i -> omap (fun i => ms !! (i * st)) (seq i k) = []) as Hz.
  { induction k as [|k IH]; intros i Hi; simpl; [done|]. rewrite lookup_ge_None_2 by nia. apply IH. lia. }
  by apply Hz.
Qed.

Lemma Msat_find_centers v h M c ms m off w :
  hok v h M c -> length M = n -> NoDup ms -> Forall (fun x => x < n) ms -> 0 < length ms -> stored c off ms -> off + length ms <= length c ->
  marks_le M m ms -> (m <= fast16_max cfg)%N -> num_check <= v_lp v -> num_check <= v_ld v ->
  Msat none (find_centers cfg P (HI (length ms) m off) ds h) w (fun '(ec, cc, it, h') w' => wle w w' /\ own w' [] w /\ exists M', hok v h' M' c /\
    ((ec = ER_OK /\ w_err w' = w_err w /\ h_e1 h' = h_e1 h /\ h_e2 h' = h_e2 h /\
      exists cm a b, it = HI (length ms) cm off /\ (cm <= fast16_max cfg)%N /\ cc = Some (a, b) /\ far_pair ms a b /\ find_marks M M' cm ms /\ centers G D ms a b) \/
     (ec <> ER_OK /\ search_fail P V ds n w ec w'))).
Proof.
  intros Hok HlM Hnd Hlt Hsz Hst Hoff Hml Hm Hlp Hld. pose proof Hok as ((p1 & Ep1 & Hp1) & (p2 & Ep2 & Hp2) & (dd & Ed & Hdd) & Emk & He1 & He2 & Est).
  assert (65535 <= fast16_max cfg)%N as HF by apply Hcfg. unfold find_centers. rewrite Est, Emk, Ep1, Ep2, Ed.
  apply Msat_bind, Msat_lift. eapply Rsat_mono; [apply next_marker_sat; eauto; lia|]. intros [it mk] (cm & M1 & -> & -> & HlM1 & Hcm & Hlt1 & HM1). cbn [hi_marker hi_size hi_mem].
  destruct (check_count_ok cfg (length ms) HF Hsz) as [Hcc Hidx].
  apply Msat_bind, Msat_lift.
  eapply Rsat_mono with (P := fun '(p1, mk) => exists c1 Q M2, p1 = Some (Arr (v_p1 v) c1) /\ length c1 = v_lp v /\ filled c1 Q /\ length Q = check_count cfg (length ms) /\
    Forall (fun x => x ∈ ms) Q /\ mk = farr (v_m v) M2 /\ find_marks M M2 cm ms /\ 1 <= marked_count M2 cm ms /\ Q = start_points ms /\ seen_is M2 cm ms Q).
  { apply (forR_sat0 none (fun i '(p1, mk) => exists c1 Q M2, p1 = Some (Arr (v_p1 v) c1) /\ length c1 = v_lp v /\ filled c1 Q /\ length Q = i /\
      Forall (fun x => x ∈ ms) Q /\ mk = farr (v_m v) M2 /\ find_marks M M2 cm ms /\ (0 < i -> 1 <= marked_count M2 cm ms) /\
      Q = omap (fun i => ms !! (i * check_step (length ms))) (seq 0 i) /\ seen_is M2 cm ms Q)).
    - exists p1, [], M1. splits; auto; [apply filled_nil| |lia|].
      2: { intros x Hx. destruct (Hlt1 x Hx) as (u & Hu & ?). rewrite Hu, elem_of_nil. split; [intros [= ->]; lia|done]. }
      split; [lia|]. split; [|done]. intros x Hx. destruct (Hlt1 x Hx) as (u & ? & ?). exists u. split; [done|lia].
    - intros i [p1' mk] Hi (c1 & Q & M2 & -> & Hl1 & Hf & HlQ & HQ & -> & HM2 & _ & EQ & Hsn). destruct (lookup_lt_is_Some_2 ms (i * check_step (length ms))) as [x Hx]; [by apply Hidx|].
      assert (x ∈ ms) as Hxms by (by eapply elem_of_list_lookup_2). assert (x < n) as Hxn by (by eapply Forall_forall in Hlt).
      rewrite (stored_get _ _ _ _ _ _ Hst Hx). cbn [Rbind]. rewrite aset_cells by lia. cbn [Rbind]. pose proof HM2 as (HlM2 & _ & _). rewrite aset_farr by lia. cbn [Rbind Rsat].
      exists (<[i:=Some x]> c1), (Q ++ [x]), (<[x:=cm]> M2). splits; auto.
      + by rewrite insert_length.
      + rewrite <- HlQ. apply filled_snoc; [done|lia].
      + rewrite app_length. simpl. lia.
      + apply Forall_app. split; [done|]. by apply Forall_singleton.
      + apply find_marks_add; auto. lia.
      + intros _. apply (marked_count_pos _ _ _ x); [done|]. apply list_lookup_insert. lia.
      + rewrite seq_S, omap_app, <- EQ. simpl. by rewrite Hx.
      + intros y Hy. rewrite (seen_is_add M2 cm ms Q x Hsn ltac:(lia) y Hy), elem_of_cons, elem_of_app, elem_of_list_singleton. tauto.
    - intros [p1' mk] (c1 & Q & M2 & ? & ? & ? & ? & ? & ? & ? & H & EQ & Hsn). exists c1, Q, M2. splits; auto; [apply H; lia|]. rewrite EQ. apply check_count_start; [done|lia]. }
  intros [p1' mk] (c1 & Q & M2 & -> & Hl1 & Hf1 & HlQ & HQ & -> & HM2 & Hcnt & EQ & Hsn).
  assert (argcells (d_ptr off (Some (Arr (v_s v) c))) (length ms) ms) as Harg. { split; [|done]. by apply stored_filled. }
  assert (ms <> []) as Hms by (by destruct ms; [simpl in Hsz; lia|]).
  apply Msat_bind. eapply Msat_mono; [apply (Msat_mx_init _ _ ms); auto|]. intros [o|] w1 (L1 & E1 & H1).
  2:{ destruct H1 as [O1 Hns]. apply Msat_bind, Msat_make_error__. intros w2 L2 O2 E2 _. apply Msat_ret. splits; [wl|blk|]. exists M2. split.
      - split; cbn; [by exists c1|]. splits; eauto.
      - right. split; [done|]. split; [by rewrite E2|]. right. auto. }
  destruct H1 as (O1 & Hgood & Hset).
  apply Msat_bind.
  apply (loopM_sat none (fun j '(num, md, cc, p1, p2, dd, mk) w' => wle w1 w' /\ own w' [] w1 /\ w_err w' = w_err w1 /\ cc_ok ms md cc /\
      exists M' c1 c2 cd Q S, mk = farr (v_m v) M' /\ find_marks M M' cm ms /\ p1 = Some (Arr (v_p1 v) c1) /\ length c1 = v_lp v /\ filled c1 Q /\ length Q = num /\ Forall (fun x => x ∈ ms) Q /\
        p2 = Some (Arr (v_p2 v) c2) /\ length c2 = v_lp v /\ dd = Some (Arr (v_d v) cd) /\ length cd = v_ld v /\ num <= num_check /\
        (if decide (0 < num) then j + 1 <= marked_count M' cm ms else j <= marked_count M' cm ms /\ cc <> None) /\ seen_is M' cm ms S /\
        (forall r, seek G D ms Q S cc r -> seek G D ms (start_points ms) (start_points ms) None r))
    (fun r w' => wle w1 w' /\ own w' [] w1 /\ w_err w' = w_err w1 /\
      match r with
      | None => ~ solid w1
      | Some (num, md, cc, p1, p2, dd, mk) => exists a b M' c1 c2 cd, cc = Some (a, b) /\ far_pair ms a b /\ centers G D ms a b /\ mk = farr (v_m v) M' /\ find_marks M M' cm ms /\
          p1 = Some (Arr (v_p1 v) c1) /\ length c1 = v_lp v /\ p2 = Some (Arr (v_p2 v) c2) /\ length c2 = v_lp v /\ dd = Some (Arr (v_d v) cd) /\ length cd = v_ld v
      end)).
  - splits; [apply wle_refl|apply own_refl|done|done|]. exists M2, c1, p2, dd, Q, Q. splits; auto; [lia| |by rewrite <- EQ]. rewrite decide_True by lia. lia.
  - intros j [[[[[[num md] cc] p1'] p2'] dd'] mk] w2 Hj (L2 & O2 & E2 & Hcco & M' & c1' & c2' & cd' & Q' & S' & -> & HM' & -> & Hlc1 & Hfc1 & HlQ' & HQ' & -> & Hlc2 & -> & Hlcd & Hnum & Hmc & HS' & Hsk).
    unfold centers_iter. case_decide as Hn0.
    + assert (Q' <> []) as HneQ by (intros ->; simpl in HlQ'; lia).
      apply Msat_bind. eapply Msat_mono.
      { apply (Msat_max_dist o num (acells (Some (Arr (v_p1 v) c1'))) Q'); auto; try lia.
        - intros x. specialize (O1 x). specialize (O2 x). simpl in O2. lia.
        - by split.
        - eapply Forall_impl; [exact HQ'|]. intros x Hx. by eapply Forall_forall in Hlt. }
      intros [[outi outd]|] w3 (L3 & O3 & E3 & H3).
      2:{ apply Msat_ret. splits; [wl|blk|congruence|]. intros HS. apply H3. eapply solid_wle; [|exact HS]. wl. }
      destruct H3 as (is & df & Hfar & (bi & ci & c2n & Eb & -> & Hf2 & Hl2) & (bd & cd & cdn & Ebd & -> & Hfd & Hld')). injection Eb as <- <-. injection Ebd as <- <-. rewrite Hset in Hfar.
      apply Msat_bind, Msat_lift. rewrite <- HlQ'.
      eapply Rsat_mono; [by apply (center_loop ms S' M M' cm md cc Q' is df _ _ _ _ _ _ _ (v_lp v))|].
      intros [[[[md2 cc2] mk2] p12] wr] (Hcc2 & Hccn & M3 & c13 & Q3 & S3 & -> & HM3 & -> & Hl13 & Hf13 & HlQ3 & Hwr & HQ3 & Hmc3 & HS3 & Hsk3). apply Msat_ret.
      splits; [wl|blk|congruence|done|]. exists M3, c13, c2n, cdn, Q3, S3. splits; auto; try lia. case_decide; [lia|]. split; [lia|done].
    + apply Msat_ret. splits; auto. destruct Hmc as [_ Hccn]. destruct cc as [[a b]|]; [|done]. exists a, b, M', c1', c2', cd'. destruct Hcco as [_ Hcco]. splits; auto.
      unfold centers. apply Hsk. destruct Q'; [|simpl in HlQ'; lia]. constructor.
  - intros [[[[[[num md] cc] p1'] p2'] dd'] mk] w2 (_ & _ & _ & _ & M' & ? & ? & ? & ? & ? & _ & _ & _ & _ & _ & _ & _ & _ & _ & _ & _ & _ & Hmc & _). exfalso.
    pose proof (marked_count_le M' cm ms). case_decide; lia.
  - intros [[[[[[[num md] cc] p1'] p2'] dd'] mk]|] w2 (L2 & O2 & E2 & H2).
    + destruct H2 as (a & b & M' & c1' & c2' & cd' & -> & Hfp & Hcen & -> & HM' & -> & Hl1' & -> & Hl2' & -> & Hlcd').
      apply Msat_bind. eapply Msat_mono; [apply Msat_mx_close; [done|]|]. { intros x. specialize (O1 x). specialize (O2 x). simpl in O2. lia. }
      intros r w3 (L3 & E3 & O3 & Hr).
      assert (hok v (HSt (Some (Arr (v_p1 v) c1')) (Some (Arr (v_p2 v) c2')) (Some (Arr (v_d v) cd')) (farr (v_m v) M') (h_e1 h) (h_e2 h) (h_st h)) M' c) as Hok'.
      { split; cbn; [by exists c1'|]. splits; eauto. }
      rewrite Est in Hok'. destruct r; cbn [negb].
      * apply Msat_ret. splits; [wl|blk|]. exists M'. split; [done|]. left. splits; auto; [congruence|]. exists cm, a, b. splits; auto.
      * apply Msat_bind, Msat_make_error__. intros w4 L4 O4 E4 _. apply Msat_ret. splits; [wl|blk|]. exists M'. split; [done|]. right. split; [done|]. split; [by rewrite E4|].
        right. split; [done|]. intros HS. apply Hr; [done|]. eapply solid_wle; [|exact HS]. wl.
    + apply Msat_bind. eapply Msat_mono; [apply Msat_mx_close; [done|]|]. { intros x. specialize (O1 x). specialize (O2 x). simpl in O2. lia. }
      intros r w3 (L3 & E3 & O3 & _). apply Msat_bind, Msat_make_error__. intros w4 L4 O4 E4 _. apply Msat_ret. splits; [wl|blk|]. exists M. split; [done|].
      right. split; [done|]. split; [by rewrite E4|]. right. split; [done|]. intros HS. apply H2. eapply solid_wle; [|exact HS]. wl.
Qed.

(** ** The lists of edges *)

Lemma list_chain (hd : list (option (nat * double))) nx (L : list (nat * double)) : forall i,
  stored hd (i + 1) L -> (forall j, i <= j < i + length L -> nx !! j = Some (Some (Some (j + 1)))) -> nx !! (i + length L) = Some (Some None) ->
  chain hd nx i (zip (seq (i + 1) (length L)) L).
Proof.
  induction L as [|[x d] L IH]; intros i Hs Hn Hl; simpl in *; [by rewrite Nat.add_0_r in Hl|].
  split; [apply Hn; lia|]. split; [lia|]. split; [by specialize (Hs 0 (x, d) eq_refl); rewrite Nat.add_0_r in Hs|].
  replace (S (i + 1)) with (i + 1 + 1) by lia. apply IH.
  - intros j y Hj. replace (i + 1 + 1 + j) with (i + 1 + S j) by lia. by apply Hs.
  - intros j Hj. apply Hn. lia.
  - by replace (i + 1 + length L) with (i + S (length L)) by lia.
Qed.

Lemma sorted_heads (f : nat -> double) (L : list (nat * double)) :
  StronglySorted (fun a b => d_gt a.2 b.2 = false) L -> (forall p, p ∈ L -> p.2 = f p.1) -> StronglySorted (ord f) (L.*1).
Proof.
  induction 1 as [|p L Hs IH Hf]; intros Hp; simpl; constructor.
  - apply IH. intros q Hq. apply Hp. by right.
  - apply Forall_fmap, Forall_forall. intros q Hq. simpl. unfold ord. rewrite Forall_forall in Hf. rewrite <- !Hp; [by apply Hf|by right|by left].
Qed.

Lemma sort_edge_list_sat qs w ms m off c st dd cd b hd nx bs bd offd big :
  (forall w l, qs w l ≡ₚ l) -> NoDup ms -> Forall (fun x => x < n) ms -> c ∈ ms -> stored st off ms -> stored cd offd (D c <$> ms) ->
  length hd = big -> length nx = big -> length ms <= big -> dd = Some (Arr bd cd) ->
  Rsat none (sort_edge_list qs w (HI (length ms) m off) c (Some (Arr bs st)) dd offd (Some (ES b hd nx)))
    (fun e => edges_from (sorts qs) (D c) ms c e /\ exists hd' nx', e = Some (ES b hd' nx') /\ length hd' = big /\ length nx' = big).
Proof.
  intros Hqs Hnd Hltn Hc Hst Hcd Hlh Hln Hbig ->. unfold sort_edge_list. cbn [hi_size hi_mem].
  set (E := (fun x => (x, D c x)) : nat -> nat * double).
  assert (length ms = S (length (filter (fun x => x <> c) ms))) as Hlen.
  { clear -Hnd Hc. induction ms as [|y ms IH]; [by apply elem_of_nil in Hc|]. apply NoDup_cons in Hnd as [H1 H2]. rewrite filter_cons. case_decide as Hy.
    - apply elem_of_cons in Hc as [->|Hc]; [done|]. simpl. f_equal. by apply IH.
    - subst y. simpl. f_equal. clear -H1. induction ms as [|z ms IH]; [done|]. apply not_elem_of_cons in H1 as [? ?]. rewrite filter_cons, decide_True by done. simpl. f_equal. by apply IH. }
  eapply Rsat_bind_mono; [apply (forR_sat0 none (fun i '(wr, e) => exists hd', e = Some (ES b hd' nx) /\ length hd' = big /\
    wr = 1 + length (filter (fun x => x <> c) (take i ms)) /\ stored hd' 1 (E <$> filter (fun x => x <> c) (take i ms))) _ _ _ (fun '(wr, e) => exists hd', e = Some (ES b hd' nx) /\ length hd' = big /\
    wr = 1 + length (filter (fun x => x <> c) ms) /\ stored hd' 1 (E <$> filter (fun x => x <> c) ms)))|].
  - exists hd. rewrite take_0. splits; auto. apply stored_nil.
  - intros i [wr e] Hi (hd' & -> & Hl & -> & Hs). destruct (lookup_lt_is_Some_2 ms i Hi) as [x Hx]. rewrite (stored_get _ _ _ _ _ _ Hst Hx). cbn [Rbind].
    rewrite (take_S_r _ _ _ Hx), filter_app, filter_cons, filter_nil. case_decide as Hxc; [rewrite decide_False by tauto|rewrite decide_True by done].
    + cbn [Rsat]. rewrite app_nil_r. exists hd'. auto.
    + rewrite (stored_get _ _ _ _ i (D c x) Hcd) by (by rewrite list_lookup_fmap, Hx). cbn [Rbind]. unfold eset. cbn [es_hd es_blk es_nx].
      assert (1 + length (filter (fun x => x <> c) (take i ms)) < length hd') as Hlt.
      { pose proof (filter_length (fun x => x <> c) (take i ms)) as Hf. rewrite take_length in Hf. pose proof (take_drop (S i) ms) as Ht. rewrite <- Ht, filter_app, app_length, (take_S_r _ _ _ Hx), filter_app, filter_cons, decide_True, filter_nil, !app_length in Hlen by done. simpl in Hlen.
        assert (length ms = S (i + length (drop (S i) ms))) by (rewrite drop_length; lia). rewrite take_length in *. lia. }
      unfold cset. rewrite decide_True by done. cbn [Rbind Rsat]. eexists. splits; [done|by rewrite insert_length|rewrite app_length; simpl; lia|].
      rewrite fmap_app. simpl. replace (S (length (filter (fun x => x <> c) (take i ms)))) with (1 + length (E <$> filter (fun x => x <> c) (take i ms))) by (by rewrite fmap_length).
      apply stored_snoc; [done|]. by rewrite fmap_length.
  - intros [wr e]. by rewrite firstn_all.
  - intros [wr e] (hd1 & -> & Hl1 & _ & Hs1). set (L := E <$> filter (fun x => x <> c) ms) in *.
    assert (length L = length ms - 1) as HlL by (unfold L; rewrite fmap_length; lia). rewrite <- HlL.
    eapply Rsat_bind_mono; [apply (forR_sat none (fun i acc => acc = take (i - 1) L))|].
    + done.
    + intros i acc Hi ->. destruct (lookup_lt_is_Some_2 L (i - 1)) as [x Hx]; [lia|]. unfold eget, cget. cbn [es_hd].
      specialize (Hs1 _ _ Hx). replace (1 + (i - 1)) with i in Hs1 by lia. rewrite Hs1. cbn [Rbind Rsat]. replace (S i - 1) with (S (i - 1)) by lia. by rewrite (take_S_r _ _ _ Hx).
    + intros acc ->. replace (1 + length L - 1) with (length L) by lia. rewrite firstn_all. pose proof (Hqs w L) as Hq. pose proof (fun H : sorts qs => H w L) as Hsq. set (L' := qs w L) in *. assert (length L' = length L) as HlL' by (by rewrite Hq).
      eapply Rsat_bind_mono; [apply (foldR_sat none (fun pre e => exists hd', e = Some (ES b hd' nx) /\ length hd' = big /\ stored hd' 1 (pre.*2)))|].
      * exists hd1. splits; auto. apply stored_nil.
      * intros pre [i x] post e Hpre (hd' & -> & Hl' & Hs'). assert (zip (seq 1 (length L)) L' !! length pre = Some (i, x)) as Hz by (rewrite Hpre; by apply list_lookup_middle).
        apply lookup_zip_with_Some in Hz as (i' & x' & [= <- <-] & Hi & _). apply lookup_seq in Hi as [-> Hi]. unfold eset. cbn [es_hd es_blk es_nx]. unfold cset. rewrite decide_True by lia. cbn [Rbind Rsat].
        eexists. splits; [done|by rewrite insert_length|]. rewrite fmap_app. simpl. replace (S (length pre)) with (1 + length (pre.*2)) by (by rewrite fmap_length). apply stored_snoc; [done|]. rewrite fmap_length. lia.
      * intros e (hd' & -> & Hl' & Hs'). rewrite snd_zip in Hs' by (rewrite seq_length; lia).
        eapply Rsat_bind_mono; [apply (forR_sat0 none (fun i e => exists nx', e = Some (ES b hd' nx') /\ length nx' = big /\ forall j, j < i -> nx' !! j = Some (Some (Some (j + 1)))) _ _ _
          (fun e => exists nx', e = Some (ES b hd' nx') /\ length nx' = big /\ forall j, j < length L -> nx' !! j = Some (Some (Some (j + 1)))))|].
        -- exists nx. splits; auto. lia.
        -- intros i e Hi (nx' & -> & Hn' & Hj). unfold eset_next, cset. cbn [es_nx es_hd es_blk]. rewrite decide_True by lia. cbn [Rbind Rsat]. eexists. splits; [done|by rewrite insert_length|].
           intros j Hji. destruct (decide (i = j)) as [->|Hne]; [apply list_lookup_insert; lia|]. rewrite list_lookup_insert_ne by done. apply Hj. lia.
        -- auto.
        -- intros e (nx' & -> & Hn' & Hj). unfold eset_next, cset. cbn [es_nx es_hd es_blk]. rewrite decide_True by lia. cbn [Rbind Rsat]. split.
           2:{ eexists _, _. splits; [done|done|by rewrite insert_length]. }
           eexists _, _, _, _. split; [done|]. split; [apply (list_chain hd' _ L' 0)|split; [|split]].
           ++ done.
           ++ intros j Hjl. rewrite list_lookup_insert_ne by lia. apply Hj. lia.
           ++ rewrite HlL'. apply list_lookup_insert. lia.
           ++ assert (forall l : list (nat * (nat * double)), heads l = (l.*2).*1) as -> by (intros l; by rewrite <- list_fmap_compose).
              rewrite snd_zip by (rewrite seq_length; lia). rewrite Hq. unfold L. rewrite <- list_fmap_compose. unfold compose. simpl. by rewrite list_fmap_id.
           ++ intros p Hp. assert (p.2 ∈ L') as HpL. { apply elem_of_list_lookup in Hp as [j Hp]. apply lookup_zip_with_Some in Hp as (? & ? & -> & _ & ?). simpl. by eapply elem_of_list_lookup_2. }
              rewrite Hq in HpL. unfold L in HpL. apply elem_of_list_fmap in HpL as (x & -> & _). done.
           ++ intros Hw. assert (forall l : list (nat * (nat * double)), heads l = (l.*2).*1) as -> by (intros l; by rewrite <- list_fmap_compose).
              rewrite snd_zip by (rewrite seq_length; lia). apply sorted_heads.
              ** apply Hsq; [done|]. unfold L. apply Forall_fmap, Forall_forall. intros x Hx. apply elem_of_list_filter in Hx as [_ Hx]. simpl. rewrite Forall_forall in Hltn. apply (dsn_nonneg _ _ _ HG); auto.
              ** intros p Hp. rewrite Hq in Hp. unfold L in Hp. by apply elem_of_list_fmap in Hp as (x & -> & _).
Qed.

Context (qs : world -> list (nat * double) -> list (nat * double)) (Hqs : forall w l, qs w l ≡ₚ l).

Lemma Msat_populate v h M c ms m off c1 c2 w :
  hok v h M c -> NoDup ms -> Forall (fun x => x < n) ms -> stored c off ms -> off + length ms <= length c -> c1 ∈ ms -> c2 ∈ ms ->
  2 * length ms <= v_ld v -> length ms <= v_big v ->
  Msat none (populate_edge_lists P qs (HI (length ms) m off) ds c1 c2 h) w (fun '(ec, h') w' => wle w w' /\ own w' [] w /\ hok v h' M c /\
    ((ec = ER_OK /\ w_err w' = w_err w /\ edges_from (sorts qs) (D c1) ms c1 (h_e1 h') /\ edges_from (sorts qs) (D c2) ms c2 (h_e2 h')) \/ (ec <> ER_OK /\ search_fail P V ds n w ec w'))).
Proof.
  intros Hok Hnd Hlt Hst Hoff Hc1 Hc2 Hld Hbig. pose proof Hok as ((p1 & Ep1 & Hp1) & (p2 & Ep2 & Hp2) & (dd & Ed & Hdd) & Emk & (hd1 & nx1 & Ee1 & Hh1 & Hn1) & (hd2 & nx2 & Ee2 & Hh2 & Hn2) & Est).
  assert (c1 < n) as Hc1n by (by eapply Forall_forall in Hlt). assert (c2 < n) as Hc2n by (by eapply Forall_forall in Hlt).
  assert (ms <> []) as Hms by (by destruct ms; [apply elem_of_nil in Hc1|]).
  unfold populate_edge_lists. rewrite Est, Ed, Ee1, Ee2, Emk, Ep1, Ep2. cbn [hi_size hi_mem].
  apply Msat_bind. eapply Msat_mono; [eapply (Msat_dist_rows P V ds n G D HP none 2 _ [c1; c2] (length ms) _ ms); auto|].
  - split; [|done]. exists []. done.
  - split; [|done]. by apply stored_filled.
  - simpl. lia.
  - intros [out|] w1 (L1 & O1 & E1 & H1).
    2:{ apply Msat_bind, Msat_make_error__. intros w2 L2 O2 E2 _. apply Msat_ret. splits; [wl|blk|done|]. right. split; [done|]. split; [by rewrite E2|]. right. auto. }
    destruct H1 as (bd & cd0 & cd & [= <- <-] & -> & Hf & Hlcd). simpl in Hf. rewrite app_nil_r in Hf.
    apply filled_holds in Hf. apply stored_app in Hf as [Hf1 Hf2]. rewrite fmap_length in Hf2. simpl in Hf2.
    apply Msat_bind. unfold Msat at 1. simpl. apply Msat_bind, Msat_lift. eapply Rsat_mono; [eapply sort_edge_list_sat with (big := v_big v); eauto|]. intros e1 (He1 & hd1' & nx1' & -> & ? & ?).
    apply Msat_bind, Msat_lift. eapply Rsat_mono; [eapply sort_edge_list_sat with (big := v_big v); eauto|]. intros e2 (He2 & hd2' & nx2' & -> & ? & ?).
    apply Msat_ret. splits; auto. split; cbn; [by exists p1|]. splits; eauto. exists cd. split; [done|]. by rewrite Hlcd.
Qed.

Lemma Msat_break v h M c ms m off k batch w :
  hok v h M c -> length M = n -> NoDup ms -> Forall (fun x => x < n) ms -> stored c off ms -> off + length ms <= length c ->
  marks_le M m ms -> (m <= fast16_max cfg)%N -> num_check <= v_lp v -> num_check <= v_ld v -> k <= v_lp v -> 2 * length ms <= v_ld v -> length ms <= v_big v ->
  2 <= k -> 2 * k <= length ms -> (N.of_nat (2 * k) <= u32max)%N ->
  Msat none (break_cluster cfg P qs (HI (length ms) m off) ds k batch h) w (fun '(ec, ii, h') w' => wle w w' /\ own w' [] w /\ exists M' c', hok v h' M' c' /\
    ((ec = ER_OK /\ w_err w' = w_err w /\ exists ms1 ms2 cm, ii = Some (HI (length ms1) cm off, HI (length ms2) cm (off + length ms1)) /\
      length ms1 + length ms2 = length ms /\ k <= length ms1 /\ k <= length ms2 /\ NoDup ms1 /\ NoDup ms2 /\ (forall x, x ∈ ms1 -> x ∈ ms) /\ (forall x, x ∈ ms2 -> x ∈ ms) /\
      (ms1 ++ ms2 ≡ₚ ms \/ (length ms2 = k /\ exists a, a ∈ ms /\ forall x, x ∈ ms -> D a x = d_zero)) /\
      length c' = length c /\ stored c' off ms1 /\ stored c' (off + length ms1) ms2 /\ (forall i, ~ (off <= i < off + length ms) -> c' !! i = c !! i) /\
      length M' = length M /\ (cm <= fast16_max cfg)%N /\ marks_le M' cm ms /\ (forall x, x ∉ ms -> M' !! x = M !! x) /\
      (sorts qs -> exists a b, centers G D ms a b /\ divided k (if batch then k else 1) (D a) (D b) ms a b ms1 ms2)) \/
     (ec <> ER_OK /\ ii = None /\ search_fail P V ds n w ec w'))).
Proof.
  intros Hok HlM Hnd Hlt Hst Hoff Hml Hm Hlp Hldn Hk Hld Hbig Hk2 Hsz Hu. assert (65535 <= fast16_max cfg)%N as HF by apply Hcfg.
  unfold break_cluster. apply Msat_bind. eapply Msat_mono; [by apply (Msat_find_centers v h M c ms m off w); auto; lia|].
  intros [[[ec cc] it] h1] w1 (L1 & O1 & M1 & Hok1 & [(-> & E1 & He1 & He2 & cm & a & b & -> & Hcm & -> & Hfp & HM1 & Hcen)|(Hec & Hf)]).
  2:{ rewrite decide_True by done. apply Msat_ret. splits; auto. exists M1, c. split; [done|]. right. auto. }
  rewrite decide_False by tauto. destruct Hfp as (Ha & Hb & Hfar). destruct HM1 as (HlM1 & HM1 & Hout1).
  apply Msat_bind. eapply Msat_mono; [by apply (Msat_populate v h1 M1 c ms cm off a b w1)|].
  intros [ec h2] w2 (L2 & O2 & Hok2 & [(-> & E2 & He1' & He2')|(Hec & Hf)]).
  2:{ rewrite decide_True by done. apply Msat_ret. splits; [wl|blk|]. exists M1, c. split; [done|]. right. splits; auto. by eapply search_fail_wle. }
  rewrite decide_False by tauto. apply Msat_bind, Msat_lift.
  eapply Rsat_mono; [apply (divide_sat (sorts qs) cfg v h2 M1 c ms cm off a b (D a) (D b) k batch); auto; try lia|].
  { eapply Forall_impl; [exact Hlt|]. simpl. lia. }
  intros [[i1 i2] h3] (ms1 & ms2 & cm' & M' & c' & -> & -> & H1 & H2 & H3 & H4 & H5 & H6 & H7 & H8 & H9 & Hok3 & H10 & H11 & H12 & H13 & H14 & H15 & H16 & H17 & H18).
  apply Msat_ret. splits; [wl|blk|]. exists M', c'. split; [done|]. left. splits; auto; [congruence|]. exists ms1, ms2, cm'. splits; auto; [|lia| |].
  - destruct (decide (a = b)) as [<-|Hne]; [right|left; by apply H8]. assert (forall x, x ∈ ms -> D a x = d_zero) as HZ.
    { intros x Hx. assert (a < n) by (by eapply Forall_forall in Hlt). assert (x < n) by (by eapply Forall_forall in Hlt). apply (dsn_zero _ _ _ HG); auto. }
    split; [|eauto]. apply H9; [done|]. auto.
  - intros x Hx. rewrite H17 by done. by apply Hout1.
  - intros Hw. exists a, b. auto.
Qed.
End Find.
