(** Claims about hierarchical clustering as a user sees them. *)

From stdpp Require Import prelude list sorting.
From Coq Require Import NArith ZArith.
From Verif Require Import Base World Mem Float FloatFacts Spi Options Digraph DigraphRep DigraphOps DigraphDiff Arrays NngGraph NngStage NngEst Dist Batch BatchProof ClusSpec ScClaims
  DistProof Example1 FailClaims Hier HierDiv HierFind HierSpec HierRun HierTop.

(** The requirements of a call, with size constraint [k] and clustering [c]. *)
Record hier_call (cfg : config) (P : provider) (V : pview P) (ds : p_ds P) (n : nat) (G : geometry) (D : dist_fun)
    (qs : world -> list (nat * double) -> list (nat * double)) (k : nat) (c : clustering) : Prop := {
  hc_cfg : config_ok cfg;
  hc_provider : provider_ok P V ds n G D;
  hc_sane : dist_sane G D n;
  hc_qsort : forall w l, qs w l ≡ₚ l;
  hc_check : p_check P ds = true;
  hc_num : p_num P ds = n;
  hc_clu : is_initialized_clustering cfg (Some c) = true;
  hc_cells : clu_ok c;
  hc_n : c_n c = n;
  hc_size : 2 <= k <= n;
  hc_wrap : (N.of_nat (2 * k) <= u32max)%N;
  hc_labels : c_k c = 0 \/ (labels_valid cfg c /\ first_fits k c)
}.

Section Claims.
Context (cfg : config) (P : provider) (V : pview P) (ds : p_ds P) (n : nat) (G : geometry) (D : dist_fun)
  (qs : world -> list (nat * double) -> list (nat * double)) (log2cap : nat -> nat -> nat) (k : nat) (batch : bool) (c : clustering).
Hypothesis (HC : hier_call cfg P V ds n G D qs k c).
Notation run := (hierarchical_clustering cfg P qs log2cap ds k batch (Some c)).
Notation solid w := (no_fail w /\ provider_reliable P V ds n).

Lemma hier_exact w : exists ec c' w', run w = Ok ((ec, Some c'), w') /\ labels_own c c' w w' /\ clu_kept c c' /\
      ((ec = ER_OK /\ w_err w' = w_err w /\ (N.of_nat (c_k c') <= cl_max cfg)%N /\ c_k c' * smallest k c <= n /\ length (cells c') = n /\
        (forall x z, cells c' !! x = Some z -> start_cells c !! x = Some z \/ exists i, i < c_k c' /\ z = Some (Z.of_nat i)) /\
        (few_duplicates n D (2 * k) -> exists news, length news = c_k c' /\ refined k (start c) news /\ labelled (cells c') news /\
           forall x, x ∉ concat (start c) -> cells c' !! x = start_cells c !! x) /\
        (sorts qs -> exists news, length news = c_k c' /\ hier_forest k (if batch then k else 1) G D (starts_of c) news /\ painted (start_cells c) (cells c') news)) \/
       (ec <> ER_OK /\ c_k c' = c_k c /\ hier_fail cfg P V ds n log2cap k c w ec w')).
Proof.
  destruct HC as [H1 H2 H3 H4 H5 H6 H7 H8 H9 H10 H11 H12].
  pose proof (Msat_hierarchical cfg P V ds n G D H1 H2 H3 qs H4 log2cap k batch c w H7 H8 H5 H6 H9 ltac:(lia) ltac:(lia) H11 H12) as H.
  apply Msat_none_inv in H as ([ec r] & w' & E & _ & c' & -> & H). exists ec, c', w'. auto.
Qed.

Lemma hier_safe w : exists ec c' w', run w = Ok ((ec, Some c'), w').
Proof. destruct (hier_exact w) as (ec & c' & w' & E & _). eauto. Qed.

Lemma hier_no_leak w ec cl' w' : run w = Ok ((ec, cl'), w') -> exists c', cl' = Some c' /\ w_live w' ++ arr_blk (c_label c) ≡ₚ arr_blk (c_label c') ++ w_live w.
Proof.
  intros E. destruct (hier_exact w) as (ec' & c' & w'' & E' & O & _). rewrite E' in E. injection E as <- <- <-. exists c'. split; [done|].
  apply cnt_perm. intros x. rewrite !cnt_app. apply O.
Qed.

Lemma hier_still_valid w ec cl' w' : run w = Ok ((ec, cl'), w') -> exists c', cl' = Some c' /\ is_initialized_clustering cfg (Some c') = true /\ c_n c' = c_n c /\ clu_ok c' /\
  (ec <> ER_OK -> c_k c' = c_k c).
Proof.
  intros E. destruct (hier_exact w) as (ec' & c' & w'' & E' & _ & K & H). rewrite E' in E. injection E as <- <- <-. exists c'. split; [done|].
  pose proof (hc_clu _ _ _ _ _ _ _ _ _ _ HC) as Hi. pose proof (hc_cells _ _ _ _ _ _ _ _ _ _ HC) as Hok. destruct K as [K1 K2 K3].
  assert ((N.of_nat (c_k c') <= cl_max cfg)%N /\ (c_label c' = None -> c_k c' = 0)) as [Hm Hl].
  { unfold is_initialized_clustering in Hi. destruct (decide (c_version c <> clustering_version)); [done|]. destruct (decide (c_n c = 0)); [done|].
    destruct (pi_max cfg <? N.of_nat (c_n c))%N; [done|]. destruct (N.ltb_spec (cl_max cfg) (N.of_nat (c_k c))); [done|].
    destruct H as [(_ & _ & H1 & _ & H2 & _)|(_ & H1 & _)].
    - split; [done|]. intros El. unfold cells in H2. rewrite El in H2. simpl in H2. pose proof (hc_size _ _ _ _ _ _ _ _ _ _ HC). lia.
    - rewrite H1. split; [lia|]. intros El. rewrite El in K3. destruct (c_label c); [done|]. destruct (decide (0 < c_k c)); [done|lia]. }
  splits; auto.
  - unfold is_initialized_clustering in *. rewrite K1, K2. destruct (decide (c_version c <> clustering_version)); [done|]. destruct (decide (c_n c = 0)); [done|].
    destruct (pi_max cfg <? N.of_nat (c_n c))%N; [done|]. destruct (N.ltb_spec (cl_max cfg) (N.of_nat (c_k c'))); [lia|]. destruct (c_label c'); [done|]. rewrite decide_False; [done|]. rewrite Hl by done. lia.
  - unfold clu_ok in *. destruct (c_label c') as [a'|]; [|done]. destruct (c_label c) as [a|]; [destruct K3 as (_ & -> & _)|destruct K3 as (-> & _)]; congruence.
  - intros Hec. destruct H as [(? & _)|(_ & ? & _)]; [done|done].
Qed.

Lemma hier_error_code w ec cl' w' : run w = Ok ((ec, cl'), w') -> ec <> ER_OK -> hier_fail cfg P V ds n log2cap k c w ec w'.
Proof.
  intros E Hec. destruct (hier_exact w) as (ec' & c' & w'' & E' & _ & _ & H). rewrite E' in E. injection E as <- <- <-. destruct H as [(? & _)|(_ & _ & ?)]; done.
Qed.

Lemma hier_succeeds w : solid w -> (N.of_nat n <= cl_max cfg)%N -> (N.of_nat (4 * n + 2 * c_k c + 18) <= u64max)%N -> (c_k c = 0 \/ (N.of_nat (c_k c + 1 + log2cap 10 n) <= u64max)%N) ->
  exists c' w', run w = Ok ((ER_OK, Some c'), w').
Proof.
  intros HS H1 H2 H3. destruct (hier_exact w) as (ec & c' & w' & E & _ & _ & [(-> & _)|(_ & _ & _ & H)]); [by eauto|]. exfalso.
  destruct H as [[_ H]|[[_ H]|[_ H]]]; [by apply H, HS|by apply H|]. pose proof (hc_size _ _ _ _ _ _ _ _ _ _ HC).
  assert (1 <= smallest k c) by (unfold smallest; case_decide; lia). destruct H as [H|[H|[H H']]]; [nia|lia|]. destruct H3; [done|lia].
Qed.

(** The labels written are those of clusters. *)
Lemma hier_labels w c' w' : run w = Ok ((ER_OK, Some c'), w') -> length (cells c') = n /\
  forall x z, cells c' !! x = Some z -> start_cells c !! x = Some z \/ exists i, i < c_k c' /\ z = Some (Z.of_nat i).
Proof.
  intros E. destruct (hier_exact w) as (ec' & c1 & w'' & E' & _ & _ & H). rewrite E' in E. injection E as -> -> ->. destruct H as [(_ & _ & _ & _ & H1 & H2 & _)|(? & _)]; [|done]. done.
Qed.

(** ** The clusters, when points do not coincide too much *)

Lemma news_cluster c' news i d : c_n c' = n -> labelled (cells c') news -> NoDup (concat news) -> (forall x, x ∈ concat news -> x < n) ->
  (forall x j, x < n -> x ∉ concat news -> j < length news -> label_of c' x <> Some (Z.of_nat j)) -> news !! i = Some d -> cluster c' i ≡ₚ d.
Proof.
  intros Hn Hlab Hnd Hlt Hout Hi. apply NoDup_Permutation.
  - apply NoDup_filter, NoDup_seq.
  - clear -Hnd Hi. revert i Hi. induction news as [|e news IH]; intros i Hi; [done|]. simpl in Hnd. apply NoDup_app in Hnd as (H1 & _ & H2). destruct i as [|i]; simpl in Hi; [by injection Hi as <-|by eapply IH].
  - intros x. unfold cluster. rewrite elem_of_list_filter, elem_of_seq, Hn. split.
    + intros [Hx Hxn]. destruct (decide (x ∈ concat news)) as [Hin|Hin].
      * apply elem_of_concat in Hin as (e & Hxe & He). apply elem_of_list_lookup in He as [j Hj]. pose proof (Hlab j e x Hj Hxe) as Hxj. unfold label_of in Hx. rewrite Hxj in Hx. simpl in Hx. injection Hx as Hx.
        apply Nat2Z.inj in Hx as ->. rewrite Hj in Hi. by injection Hi as <-.
      * exfalso. apply (Hout x i); auto; [lia|]. by eapply lookup_lt_Some.
    + intros Hx. split; [unfold label_of; by rewrite (Hlab i d x Hi Hx)|]. split; [lia|]. apply Hlt, elem_of_concat. exists d. split; [done|]. by eapply elem_of_list_lookup_2.
Qed.

Lemma start_ok : NoDup (concat (start c)) /\ (forall x, x ∈ concat (start c) -> x < n) /\
  (c_k c <> 0 -> forall x, x < n -> x ∉ concat (start c) -> label_of c x = Some (cl_na cfg)) /\ (c_k c = 0 -> forall x, x < n -> x ∈ concat (start c)).
Proof.
  pose proof (hc_n _ _ _ _ _ _ _ _ _ _ HC) as Hn. unfold start. case_decide as Hk.
  - simpl. rewrite app_nil_r. splits; [apply NoDup_seq| |done|].
    + intros x Hx. apply elem_of_seq in Hx. lia.
    + intros _ x Hx. apply elem_of_seq. lia.
  - assert (cluster c <$> seq 0 (c_k c) = cls (cells c) n <$> seq 0 (c_k c)) as ->.
    { apply list_fmap_ext. intros ? i _. unfold cluster, cls, label_of. by rewrite Hn. }
    splits; [apply concat_cls_nodup| | |done].
    + intros x Hx. apply elem_concat_cls in Hx as (i & _ & Hx). by apply elem_cls in Hx as [? _].
    + intros _ x Hx Hnot. destruct (hc_labels _ _ _ _ _ _ _ _ _ _ HC) as [?|[Hv _]]; [done|]. destruct (Hv x) as (z & Hz & [->|Hr]); [lia|unfold label_of; by rewrite Hz|].
      exfalso. apply Hnot. apply elem_concat_cls. exists (Z.to_nat z). split; [lia|]. apply elem_cls. rewrite Hz. simpl. rewrite Z2Nat.id by lia. auto.
Qed.

Definition parent (c' : clustering) (i j : nat) : Prop := forall x, x ∈ cluster c' i -> x ∈ (if decide (c_k c = 0) then seq 0 n else cluster c j).

Lemma hier_news w c' w' : few_duplicates n D (2 * k) -> run w = Ok ((ER_OK, Some c'), w') ->
  exists news, length news = c_k c' /\ refined k (start c) news /\ (forall i d, news !! i = Some d -> cluster c' i ≡ₚ d) /\
    (forall x, x ∉ concat (start c) -> label_of c' x = label_of c x \/ n <= x) /\ c_n c' = n.
Proof.
  intros Hdup E. destruct (hier_exact w) as (ec' & c1 & w'' & E' & _ & K & H). rewrite E' in E. injection E as -> -> ->. destruct H as [(_ & _ & Hmax & _ & Hl & _ & H & _)|(? & _)]; [|done].
  destruct (H Hdup) as (news & Hlen & Href & Hlab & Hout). exists news. destruct start_ok as (S1 & S2 & S3 & S4). pose proof (rf_cover _ _ _ Href) as Hcov.
  assert (c_n c' = n) as Hn by (rewrite (ck_n _ _ K); apply HC). assert (forall x, x ∉ concat (start c) -> label_of c' x = label_of c x \/ n <= x) as Hrest.
  { intros x Hx. destruct (decide (x < n)) as [Hxn|]; [left|right; lia]. destruct (decide (c_k c = 0)) as [Hk|Hk]; [by destruct Hx; apply S4|].
    unfold label_of. rewrite Hout by done. unfold start_cells, cells. pose proof (hc_clu _ _ _ _ _ _ _ _ _ _ HC) as Hi. unfold is_initialized_clustering in Hi.
    destruct (decide (c_version c <> clustering_version)); [done|]. destruct (decide (c_n c = 0)); [done|].
    destruct (pi_max cfg <? N.of_nat (c_n c))%N; [done|]. destruct (cl_max cfg <? N.of_nat (c_k c))%N; [done|]. destruct (c_label c); [done|]. destruct (decide (0 < c_k c)); [done|lia]. }
  splits; auto. intros i d Hi. eapply news_cluster; eauto.
  - by rewrite Hcov.
  - intros x Hx. apply S2. by rewrite <- Hcov.
  - intros x j Hx Hnot Hj. rewrite Hcov in Hnot. destruct (decide (c_k c = 0)) as [Hk|Hk]; [by destruct Hnot; apply S4|]. destruct (Hrest x Hnot) as [->|?]; [|lia].
    rewrite (S3 Hk x Hx Hnot). intros [= Hna]. apply (na_not_label cfg (hc_cfg _ _ _ _ _ _ _ _ _ _ HC) j (length news)); auto. by rewrite Hlen.
Qed.

Lemma hier_cluster w c' w' i : few_duplicates n D (2 * k) -> run w = Ok ((ER_OK, Some c'), w') -> i < c_k c' ->
  cluster c' i <> [] /\ exists o, o ∈ start c /\ ((cluster c' i ≡ₚ o /\ length o < 2 * k) \/ ((forall x, x ∈ cluster c' i -> x ∈ o) /\ 2 * k <= length o /\ k <= length (cluster c' i) < 2 * k)).
Proof.
  intros Hdup E Hi. destruct (hier_news _ _ _ Hdup E) as (news & Hlen & [R1 R2 R3] & Hclu & _ & _). destruct (lookup_lt_is_Some_2 news i) as [d Hd]; [lia|].
  pose proof (Hclu _ _ Hd) as Hp. eapply Forall_lookup_1 in R2; [|exact Hd]. eapply Forall_lookup_1 in R3; [|exact Hd]. simpl in *. split.
  - intros Hnil. rewrite Hnil in Hp. by apply Permutation_nil in Hp.
  - destruct R3 as (o & Ho & Hor). exists o. split; [done|]. rewrite Hp. destruct Hor as [?|(H1 & H2)]; [by left|right]. split; [|done]. intros x Hx. rewrite Hp in Hx. auto.
Qed.

Lemma hier_from_scratch w c' w' : c_k c = 0 -> few_duplicates n D (2 * k) -> run w = Ok ((ER_OK, Some c'), w') ->
  (forall x, x < n -> in_cluster c' x) /\ forall i, i < c_k c' -> k <= length (cluster c' i) < 2 * k.
Proof.
  intros Hk Hdup E. destruct start_ok as (S1 & S2 & S3 & S4). pose proof (hc_n _ _ _ _ _ _ _ _ _ _ HC) as Hn. pose proof (hc_size _ _ _ _ _ _ _ _ _ _ HC) as Hs. split.
  - intros x Hx. destruct (hier_news _ _ _ Hdup E) as (news & Hlen & [R1 R2 R3] & Hclu & _ & _). specialize (S4 Hk x Hx). rewrite <- R1 in S4. apply elem_of_concat in S4 as (d & Hxd & Hd).
    apply elem_of_list_lookup in Hd as [i Hi]. exists i. split; [rewrite <- Hlen; by eapply lookup_lt_Some|]. by rewrite (Hclu _ _ Hi).
  - intros i Hi. destruct (hier_cluster w c' w' i Hdup E Hi) as (_ & o & Ho & [[Hp Hl]|(_ & _ & Hl)]); [|done].
    unfold start in Ho. rewrite decide_True in Ho by done. apply elem_of_list_singleton in Ho as ->. rewrite Hp in *. rewrite seq_length in *. lia.
Qed.

Lemma hier_nested w c' w' : c_k c <> 0 -> few_duplicates n D (2 * k) -> run w = Ok ((ER_OK, Some c'), w') ->
  (forall i, i < c_k c' -> cluster c' i <> [] /\ exists j, j < c_k c /\ (forall x, x ∈ cluster c' i -> x ∈ cluster c j) /\
     (length (cluster c j) < 2 * k -> cluster c' i ≡ₚ cluster c j) /\ (2 * k <= length (cluster c j) -> k <= length (cluster c' i) < 2 * k)) /\
  (forall j, j < c_k c -> 0 < length (cluster c j) < 2 * k -> exists i, i < c_k c' /\ cluster c' i ≡ₚ cluster c j) /\
  (forall x, x < n -> unlabelled cfg c x -> unlabelled cfg c' x) /\
  (forall x, x < n -> in_cluster c x <-> in_cluster c' x).
Proof.
  intros Hk Hdup E. destruct start_ok as (S1 & S2 & S3 & S4). pose proof (hc_n _ _ _ _ _ _ _ _ _ _ HC) as Hn.
  assert (start c = cluster c <$> seq 0 (c_k c)) as Hst by (unfold start; by rewrite decide_False by done).
  assert (forall o, o ∈ start c -> exists j, j < c_k c /\ o = cluster c j) as Hin.
  { intros o Ho. rewrite Hst in Ho. apply elem_of_list_fmap in Ho as (j & -> & Hj). apply elem_of_seq in Hj. exists j. split; [lia|done]. }
  assert (forall j, j < c_k c -> cluster c j ∈ start c) as Hin'. { intros j Hj. rewrite Hst. apply elem_of_list_fmap. exists j. split; [done|]. apply elem_of_seq. lia. }
  assert (forall x j j', x ∈ cluster c j -> x ∈ cluster c j' -> j = j') as Huniq.
  { intros x j j' H1 H2. apply elem_of_list_filter in H1 as [H1 _]. apply elem_of_list_filter in H2 as [H2 _]. rewrite H1 in H2. injection H2. lia. }
  destruct (hier_news _ _ _ Hdup E) as (news & Hlen & [R1 R2 R3] & Hclu & Hrest & Hn').
  assert (forall x, x ∈ concat (start c) <-> in_cluster c x) as Hic.
  { intros x. rewrite elem_of_concat. split; [intros (o & Hx & Ho); destruct (Hin _ Ho) as (j & Hj & ->); by exists j|]. intros (j & Hj & Hx). exists (cluster c j). auto. }
  assert (forall x, x ∈ concat news <-> in_cluster c' x) as Hic'.
  { intros x. rewrite elem_of_concat. split.
    - intros (d & Hx & Hd). apply elem_of_list_lookup in Hd as [i Hi]. exists i. split; [rewrite <- Hlen; by eapply lookup_lt_Some|]. by rewrite (Hclu _ _ Hi).
    - intros (i & Hi & Hx). destruct (lookup_lt_is_Some_2 news i) as [d Hd]; [lia|]. exists d. rewrite (Hclu _ _ Hd) in Hx. split; [done|]. by eapply elem_of_list_lookup_2. }
  assert (forall i, i < c_k c' -> cluster c' i <> [] /\ exists j, j < c_k c /\ (forall x, x ∈ cluster c' i -> x ∈ cluster c j) /\
     (length (cluster c j) < 2 * k -> cluster c' i ≡ₚ cluster c j) /\ (2 * k <= length (cluster c j) -> k <= length (cluster c' i) < 2 * k)) as Hall.
  { intros i Hi. destruct (hier_cluster w c' w' i Hdup E Hi) as (Hne & o & Ho & Hor). split; [done|]. destruct (Hin _ Ho) as (j & Hj & ->). exists j. split; [done|].
    destruct Hor as [[Hp Hl]|(Hs & Hb & Hl)].
    - splits; [|done|lia]. intros x Hx. by rewrite <- Hp.
    - splits; auto. lia. }
  splits; auto.
  - intros j Hj Hl. destruct (cluster c j) as [|x r] eqn:Ex; [simpl in Hl; lia|]. assert (x ∈ cluster c j) as Hx by (rewrite Ex; apply elem_of_cons; by left).
    assert (x ∈ concat news) as Hxn by (rewrite R1; apply Hic; by exists j). apply Hic' in Hxn as (i & Hi & Hxi). exists i. split; [done|].
    destruct (Hall i Hi) as (_ & j' & Hj' & Hs & Hsm & _). assert (j = j') as <- by (eapply Huniq; [exact Hx|by apply Hs]). rewrite <- Ex in *. apply Hsm. lia.
  - intros x Hx Hu. unfold unlabelled in *. destruct (decide (x ∈ concat (start c))) as [Hxs|Hxs].
    + apply Hic in Hxs as (j & Hj & Hxj). apply elem_of_list_filter in Hxj as [Hxj _]. rewrite Hu in Hxj. injection Hxj as Hna. exfalso.
      assert ((N.of_nat (c_k c) <= cl_max cfg)%N) as Hm; [|by apply (na_not_label cfg (hc_cfg _ _ _ _ _ _ _ _ _ _ HC) j (c_k c))].
      pose proof (hc_clu _ _ _ _ _ _ _ _ _ _ HC) as Hi. unfold is_initialized_clustering in Hi.
      destruct (decide (c_version c <> clustering_version)); [done|]. destruct (decide (c_n c = 0)); [done|].
      destruct (pi_max cfg <? N.of_nat (c_n c))%N; [done|]. destruct (N.ltb_spec (cl_max cfg) (N.of_nat (c_k c))); [done|lia].
    + destruct (Hrest x Hxs) as [->|?]; [done|lia].
  - intros x Hx. rewrite <- Hic, <- Hic'. by rewrite R1.
Qed.
End Claims.

(** ** Rejected calls *)

Lemma hier_reject cfg P qs log2cap ds k batch cl w :
  is_initialized_clustering cfg cl = false \/ p_check P ds = false \/ (exists c, cl = Some c /\ (p_num P ds <> c_n c \/ k < 2 \/ c_n c < k)) ->
  exists ec w', hierarchical_clustering cfg P qs log2cap ds k batch cl w = Ok ((ec, cl), w') /\ ec <> ER_OK /\ w_live w' ≡ₚ w_live w /\ e_code (w_err w') = ec.
Proof.
  intros H. assert (Msat none (hierarchical_clustering cfg P qs log2cap ds k batch cl) w (fun '(ec, cl') w' => cl' = cl /\ ec <> ER_OK /\ own w' [] w /\ e_code (w_err w') = ec)) as Hs.
  { unfold hierarchical_clustering. destruct (is_initialized_clustering cfg cl) eqn:Ei; cbn [negb].
    2:{ apply Msat_bind, Msat_make_error__. intros w1 L1 O1 E1 _. apply Msat_ret. splits; auto. by rewrite E1. }
    destruct cl as [c|]; [|done]. destruct (p_check P ds) eqn:Ep; cbn [negb].
    2:{ apply Msat_bind, Msat_make_error__. intros w1 L1 O1 E1 _. apply Msat_ret. splits; auto. by rewrite E1. }
    destruct H as [?|[?|(c' & [= <-] & H)]]; [done|done|].
    case_decide. { apply Msat_bind, Msat_make_error__. intros w1 L1 O1 E1 _. apply Msat_ret. splits; auto. by rewrite E1. }
    case_decide. { apply Msat_bind, Msat_make_error__. intros w1 L1 O1 E1 _. apply Msat_ret. splits; auto. by rewrite E1. }
    case_decide. { apply Msat_bind, Msat_make_error__. intros w1 L1 O1 E1 _. apply Msat_ret. splits; auto. by rewrite E1. }
    lia. }
  apply Msat_none_inv in Hs as ([ec cl'] & w' & E & -> & ? & O & ?). exists ec, w'. splits; auto. by apply own_perm.
Qed.

(** ** The built-in distance functions *)

Lemma builtin_sane d n : data_ok d n -> dist_sane (eucl_geo d) (eucl d) n.
Proof.
  intros Hd. constructor.
  - intros x y Hx Hy. apply d_sqrt_nonneg. by apply (sqd_nonneg d n Hd).
  - intros x y Hx Hy Hle. unfold eucl. assert (sqd d x y = d_zero) as ->; [|done]. simpl in Hle. rewrite (sqd_self d n Hd) in Hle.
    pose proof (sqd_nonneg d n Hd x y) as Hnn. destruct (sqd d x y) as [[]|[]| |[] m e]; try done.
Qed.

(** A way to sort. *)
Fixpoint ins_edge (x : nat * double) (l : list (nat * double)) : list (nat * double) :=
  match l with [] => [x] | y :: r => if d_lt x.2 y.2 then x :: l else y :: ins_edge x r end.
Definition sort_edges (w : world) (l : list (nat * double)) : list (nat * double) := foldl (fun a x => ins_edge x a) [] l.
Lemma ins_edge_perm x l : ins_edge x l ≡ₚ x :: l.
Proof. induction l as [|y l IH]; [done|]. simpl. destruct (d_lt x.2 y.2); [done|]. rewrite IH. apply Permutation_swap. Qed.
Lemma sort_edges_perm w l : sort_edges w l ≡ₚ l.
Proof.
  unfold sort_edges. assert (forall a, foldl (fun a x => ins_edge x a) a l ≡ₚ a ++ l) as H; [|apply (H [])].
  induction l as [|x l IH]; intros a; simpl; [by rewrite app_nil_r|]. rewrite IH, ins_edge_perm. by rewrite <- Permutation_middle.
Qed.

Definition cap (m n : nat) : nat := m * Nat.log2 n.

(** Runs on a line. *)
Definition hier_line (l : list Z) (k : nat) (batch : bool) (c : clustering) (w : world) : R (ecode * option clustering * world) :=
  hierarchical_clustering default_config builtin sort_edges cap (Some (line l)) k batch (Some c) w.
Definition hier_callable (l : list Z) (k : nat) (c : clustering) : Prop :=
  hier_call default_config builtin (builtin_view (line l) (length l)) (Some (line l)) (length l) (eucl_geo (line l)) (eucl (line l)) sort_edges k c.

Definition labels_valid_b (c : clustering) : bool :=
  bool_decide (length (cells c) = c_n c) &&
  forallb (fun z => match z with Some z => bool_decide (z = cl_na default_config) || (bool_decide (0 <= z)%Z && bool_decide (z < Z.of_nat (c_k c))%Z) | None => false end) (cells c).
Definition first_fits_b (k : nat) (c : clustering) : bool :=
  bool_decide (length (cluster c 0) < 2 * k) || existsb (fun i => bool_decide (1 <= i) && bool_decide (length (cluster c 0) <= length (cluster c i))) (seq 0 (c_k c)).

Lemma labels_valid_by c : labels_valid_b c = true -> labels_valid default_config c.
Proof.
  unfold labels_valid_b. rewrite andb_true_iff. intros [Hl%bool_decide_eq_true_1 H] x Hx. destruct (lookup_lt_is_Some_2 (cells c) x) as [z Hz]; [lia|]. rewrite forallb_forall in H.
  specialize (H z). feed specialize H; [by eapply elem_of_list_In, elem_of_list_lookup_2|]. destruct z as [z|]; [|done]. exists z. split; [done|].
  apply orb_true_iff in H as [H%bool_decide_eq_true_1|H]; [by left|]. apply andb_true_iff in H as [H1%bool_decide_eq_true_1 H2%bool_decide_eq_true_1]. right. lia.
Qed.
Lemma first_fits_by k c : first_fits_b k c = true -> first_fits k c.
Proof.
  unfold first_fits_b. rewrite orb_true_iff. intros [H%bool_decide_eq_true_1|H]; [by left|]. right. apply existsb_exists in H as (i & Hi & H). apply elem_of_list_In, elem_of_seq in Hi.
  apply andb_true_iff in H as [H1%bool_decide_eq_true_1 H2%bool_decide_eq_true_1]. exists i. split; [lia|done].
Qed.

Lemma hier_callable_by l k c : l <> [] -> finite_b l = true -> is_initialized_clustering default_config (Some c) = true -> c_n c = length l -> clu_ok c -> 2 <= k <= length l ->
  (N.of_nat (2 * k) <= u32max)%N -> (bool_decide (c_k c = 0) || (labels_valid_b c && first_fits_b k c)) = true -> hier_callable l k c.
Proof.
  intros H1 H2 H3 H4 H5 H6 H7 H8. pose proof (line_data l H1 H2) as Hd. constructor; auto.
  - apply default_config_ok.
  - by apply builtin_ok.
  - by apply builtin_sane.
  - apply sort_edges_perm.
  - simpl. unfold is_initialized_data_set. simpl. by destruct l.
  - apply orb_true_iff in H8 as [H8%bool_decide_eq_true_1|H8]; [by left|]. apply andb_true_iff in H8 as [H8 H9]. right. split; [by apply labels_valid_by|by apply first_fits_by].
Qed.

Definition is_zero (x : double) : bool := match x with SpecFloat.S754_zero false => true | _ => false end.
Lemma few_duplicates_by n D m : forallb (fun a => bool_decide (length (filter (fun y => is_zero (D a y) = true) (seq 0 n)) < m)) (seq 0 n) = true -> few_duplicates n D m.
Proof.
  intros H a l Ha Hnd Hl. rewrite forallb_forall in H. specialize (H a). feed specialize H; [apply elem_of_list_In, elem_of_seq; lia|]. apply bool_decide_eq_true_1 in H.
  eapply Nat.le_lt_trans; [|exact H]. apply submseteq_length, NoDup_submseteq; [done|]. intros y Hy. rewrite Forall_forall in Hl. destruct (Hl y Hy) as [H1 H2].
  apply elem_of_list_filter. rewrite H2. split; [done|]. apply elem_of_seq. lia.
Qed.

(** ** Particular runs *)

(** A clustering with a label array in block 0. *)
Definition old_clustering (k : nat) (labels : list Z) : clustering := Clu clustering_version (length labels) k (farr 0 labels) false.
Definition world_old (f : nat -> bool) : world := World f 1 [0] no_errst 0 0.
Definition eleventh : nat -> bool := fun j => bool_decide (j = 10).

Definition old3 : clustering := old_clustering 4 [0; 0; 0; 4294967295; 1; 1; 1; 1; 1; 2; 2; 2]%Z.
Lemma hier_run_scratch : hier_callable pts 2 (new_clustering 12) /\ few_duplicates 12 (eucl (line pts)) (2 * 2) /\
  ends (hier_line pts 2 false (new_clustering 12) world0) ER_OK 5 [4; 2; 4; 3; 1; 0; 2; 3; 0; 0; 1; 4]%Z 1.
Proof.
  split; [apply hier_callable_by; try done; simpl; lia|]. split; [apply few_duplicates_by; by vm_compute|]. apply ends_by. by vm_compute.
Qed.
Lemma hier_run_old : hier_callable pts 2 old3 /\
  ends (hier_line pts 2 false old3 (world_old (fun _ => false))) ER_OK 4 [3; 3; 3; 4294967295; 1; 2; 1; 1; 2; 0; 0; 0]%Z 1.
Proof. split; [apply hier_callable_by; try done; simpl; lia|]. apply ends_by. by vm_compute. Qed.

(** Four equal points: the last is not labelled. *)
Lemma hier_duplicates_witness : hier_callable [1; 1; 1; 1]%Z 2 (new_clustering 4) /\ exists c' w',
  hier_line [1; 1; 1; 1]%Z 2 false (new_clustering 4) world0 = Ok ((ER_OK, Some c'), w') /\ c_k c' = 2 /\ cells c' = [Some 1; Some 1; Some 0; None]%Z /\
  length (cluster c' 0) = 1.
Proof.
  split; [apply hier_callable_by; try done; simpl; lia|]. destruct (hier_line [1; 1; 1; 1]%Z 2 false (new_clustering 4) world0) as [[[ec [c'|]] w']|u] eqn:E.
  2,3: exfalso; by vm_compute in E. exists c', w'. vm_compute in E. injection E as <- <- <-. done.
Qed.

(** One cluster of four points. *)
Lemma hier_overflow_witness : let c := old_clustering 1 [0; 0; 0; 0]%Z in
  is_initialized_clustering default_config (Some c) = true /\ clu_ok c /\ labels_valid default_config c /\
  hier_line [0; 1; 2; 3]%Z 2 false c (world_old (fun _ => false)) = Bad Oob.
Proof. simpl. splits; [done|done|apply labels_valid_by; by vm_compute|by vm_compute]. Qed.

(** Two clusters of four points; a failed allocation when the second is split. *)
Definition old2 : clustering := old_clustering 2 [0; 1; 0; 1; 0; 1; 0; 1]%Z.
Lemma hier_changed_witness : hier_callable [0; 1; 2; 3; 4; 5; 6; 7]%Z 2 old2 /\
  ends (hier_line [0; 1; 2; 3; 4; 5; 6; 7]%Z 2 false old2 (world_old eleventh)) ER_DIST_SEARCH_ERROR 2 [0; 0; 0; 0; 0; 1; 0; 1]%Z 1.
Proof. split; [apply hier_callable_by; try done; simpl; lia|]. apply ends_by. by vm_compute. Qed.
