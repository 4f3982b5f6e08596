(** What the comparison of runs says about calls of scc_hierarchical_clustering. *)

From stdpp Require Import prelude list sorting.
From Coq Require Import NArith ZArith.
From Verif Require Import Base World Mem Float Spi Dist Options Hier NngClustering ClusSpec DistProof Example1 FailClaims HierSpec HierFind HierDiv HierRun HierTop HierClaims Report ScFacts PipeHier Same SameClaims.

(** Search functions whose answers depend on their arguments only. *)
Definition hier_repeatable (P : provider) : Prop := exists RM : NNRel (p_mx P), forall f1 f2, @hier_same f1 f2 P RM eq.
Definition hier_alike (P : provider) (ds ds' : p_ds P) : Prop := exists (RM : NNRel (p_mx P)) (RE : NNRel (p_ds P)), RE ds ds' /\ forall f1 f2, @hier_same f1 f2 P RM RE.
Lemma hier_repeatable_alike P ds : hier_repeatable P -> hier_alike P ds ds.
Proof. intros [RM H]. by exists RM, eq. Qed.
(** Sorting depends on what is sorted only. *)
Definition qsort_repeatable (qs : world -> list (nat * double) -> list (nat * double)) : Prop := forall w1 w2 l, qs w1 l = qs w2 l.

Definition mx_same : NNRel (p_mx builtin) := fun (o o' : sobj) => so_ds o = so_ds o' /\ so_set o = so_set o'.
Lemma builtin_hier_repeatable : hier_repeatable builtin.
Proof.
  exists mx_same. intros f1 f2. constructor; cbn [p_rows p_mx_init p_mx_get p_mx_close builtin p_mx p_ds].
  - by intros ds ? <-.
  - by intros ds ? <-.
  - intros ds ? q c <-. unfold imp_rows. apply rM_lift0, rR_refl.
  - intros ds ? s <-. unfold imp_init. eapply rM_bind; [apply rM_malloc| |intros _ ? ->; by apply res_ret|intros _ ? ->; by apply res_ret].
    intros [a|] [b|] H; try done; by apply rM_ret.
  - intros o o' q [E1 E2]. unfold imp_max_get. rewrite <- E1, <- E2. eapply (rM_bind _ _ (fun _ => False) (fun _ _ => True)).
    { apply rM_keep; intros w a w'; unfold deref; destruct (decide _); try done; intros [= <- <-]; by split. }
    2, 3: done. intros _ _ _. apply rM_lift0, rR_refl.
  - intros o o' _. unfold imp_close. eapply (rM_bind _ _ (fun _ => False) (fun _ _ => True)); [apply rM_keep; intros w a w'; apply wle_free| |done|done]. intros _ _ _. by apply rM_ret.
  - intros o o' _. unfold imp_close. eapply (rM_bind _ _ (fun _ => False) (fun _ _ => True)); [apply rM_keep; intros w a w'; apply wle_free| |done|done]. intros _ _ _. by apply rM_ret.
Qed.

(** Both without clusters, or both with the same. *)
Definition same_start (c1 c2 : clustering) : Prop := (c_k c1 = 0 /\ c_k c2 = 0) \/ (c_k c1 <> 0 /\ c_k c1 = c_k c2 /\ cells c1 = cells c2).

Section Call.
Context (cfg : config) (P : provider) (V : pview P) (ds : p_ds P) (n : nat) (G : geometry) (D : dist_fun)
  (qs : world -> list (nat * double) -> list (nat * double)) (log2cap : nat -> nat -> nat) (k : nat) (batch : bool).
Notation call := (hier_call cfg P V ds n G D qs k).
Notation run c := (hierarchical_clustering cfg P qs log2cap ds k batch (Some c)).

Lemma hier_version c : call c -> c_version c = clustering_version.
Proof.
  intros H. pose proof (hc_clu _ _ _ _ _ _ _ _ _ _ H) as Hi. unfold is_initialized_clustering in Hi. destruct (decide (c_version c <> _)) as [|E]; [done|]. by apply dec_stable in E.
Qed.
Lemma hier_bare c : call c -> c_k c = 0 -> exists c0, call c0 /\ c_k c0 = 0 /\ c_label c0 = None.
Proof.
  intros H K. exists (Clu (c_version c) (c_n c) 0 None false). split; [|done]. destruct H. constructor; try done; [|by left].
  unfold is_initialized_clustering in *. cbn [c_version c_n c_k c_label]. rewrite K in hc_clu.
  repeat match goal with |- (if ?x then _ else _) = _ => destruct x; [try done|] end; try done. all: try (destruct (decide (0 < 0)); [lia|done]).
Qed.
(** All cells of the result are written. *)
Lemma hier_written c w c' w' : call c -> (c_k c = 0 -> few_duplicates n D (2 * k)) -> run c w = Ok ((ER_OK, Some c'), w') ->
  length (cells c') = n /\ forall x, x < n -> exists z, cells c' !! x = Some (Some z).
Proof.
  intros H Hd E. destruct (hier_labels _ _ _ _ _ _ _ _ log2cap _ batch _ H _ _ _ E) as [Hn Hc]. split; [done|]. intros x Hx.
  destruct (lookup_lt_is_Some_2 (cells c') x) as [z Z]; [lia|]. destruct (decide (c_k c = 0)) as [K|K].
  - destruct (hier_from_scratch _ _ _ _ _ _ _ _ log2cap _ batch _ H _ _ _ K (Hd K) E) as [H1 _]. clear E. destruct (H1 x Hx) as (i & _ & [Hl _]%elem_of_list_filter).
    unfold label_of in Hl. rewrite Z in Hl. simpl in Hl. subst z. eauto.
  - clear E. destruct (Hc x z Z) as [Hz|(i & _ & ->)]; [|eauto]. destruct (hc_labels _ _ _ _ _ _ _ _ _ _ H) as [?|[Hv _]]; [done|].
    destruct (Hv x) as (y & Hy & _); [by rewrite (hc_n _ _ _ _ _ _ _ _ _ _ H)|]. unfold start_cells in Hz. unfold cells in Hy.
    destruct (c_label c); [|by rewrite lookup_nil in Hy]. rewrite Hy in Hz. injection Hz as <-. eauto.
Qed.
End Call.
Lemma hier_clp cfg P qs k V1 ds1 n G1 D1 V2 ds2 G2 D2 c1 c2 : hier_call cfg P V1 ds1 n G1 D1 qs k c1 -> hier_call cfg P V2 ds2 n G2 D2 qs k c2 -> (c_k c1 = 0 /\ c_k c2 = 0 /\ c_label c2 = None) \/ (c_k c1 <> 0 /\ c_k c1 = c_k c2 /\ cells c1 = cells c2) -> clp c1 c2.
Proof.
  intros H1 H2 Hs. pose proof (hier_version _ _ _ _ _ _ _ _ _ _ H1) as W1. pose proof (hier_version _ _ _ _ _ _ _ _ _ _ H2) as W2. pose proof (hc_n _ _ _ _ _ _ _ _ _ _ H1) as N1. pose proof (hc_n _ _ _ _ _ _ _ _ _ _ H2) as N2.
  destruct Hs as [(K1 & K2 & L)|(K1 & K2 & L)].
  - split; [|by left]. unfold clw. rewrite L. splits; try congruence.
  - assert (forall c, is_initialized_clustering cfg (Some c) = true -> c_k c <> 0 -> is_Some (c_label c)) as Hl.
    { intros c Hi K. unfold is_initialized_clustering in Hi. repeat (destruct (decide _); [done|]). repeat (destruct (_ <? _)%N; [done|]).
      destruct (c_label c); [by eexists|]. destruct (decide (0 < c_k c)); [done|lia]. }
    destruct (Hl c1 (hc_clu _ _ _ _ _ _ _ _ _ _ H1) K1) as [a A]. destruct (Hl c2 (hc_clu _ _ _ _ _ _ _ _ _ _ H2)) as [b B]; [congruence|]. split; [|right; split; by eexists]. unfold clw. splits; try congruence.
    rewrite A, B. intros x y [= <-] [= <-] i u v X Y. unfold cells in L. rewrite A, B in L. rewrite L in X. congruence.
Qed.

Lemma hier_again cfg P qs k V ds n G D V' ds' G' D' c c' : hier_call cfg P V ds n G D qs k c -> hier_call cfg P V' ds' n G' D' qs k c' -> hier_call cfg P V ds n G D qs k c'.
Proof. intros H H'. destruct H, H'. by constructor. Qed.

Section Alike.
Context (cfg : config) (P : provider) (n : nat) (qs : world -> list (nat * double) -> list (nat * double)) (log2cap : nat -> nat -> nat) (k : nat) (batch : bool).
Context (V1 V2 V0 : pview P) (ds1 ds2 ds0 : p_ds P) (G1 G2 G0 : geometry) (D1 D2 D0 : dist_fun).
Notation call1 := (hier_call cfg P V1 ds1 n G1 D1 qs k).
Notation call2 := (hier_call cfg P V2 ds2 n G2 D2 qs k).
Notation call0 := (hier_call cfg P V0 ds0 n G0 D0 qs k).
Notation run ds c := (hierarchical_clustering cfg P qs log2cap ds k batch (Some c)).
Context (HA1 : hier_alike P ds1 ds0) (HA2 : hier_alike P ds2 ds0) (Hqs : qsort_repeatable qs).

Lemma hier_same_labels V ds G D V' ds' G' D' c1 c2 w1 w2 w1' w2' d1 d2 : hier_call cfg P V ds n G D qs k c1 -> hier_call cfg P V' ds' n G' D' qs k c2 ->
  (c_k c1 = 0 -> few_duplicates n D (2 * k)) -> (c_k c2 = 0 -> few_duplicates n D' (2 * k)) ->
  run ds c1 w1 = Ok ((ER_OK, Some d1), w1') -> run ds' c2 w2 = Ok ((ER_OK, Some d2), w2') -> clr d1 d2 -> c_k d1 = c_k d2 /\ cells d1 = cells d2.
Proof.
  intros H1 H2 F1 F2 E1 E2 (_ & _ & K & L). split; [done|]. destruct (hier_written _ _ _ _ _ _ _ _ _ _ _ _ _ _ _ H1 F1 E1) as [N1 A1]. destruct (hier_written _ _ _ _ _ _ _ _ _ _ _ _ _ _ _ H2 F2 E2) as [N2 A2]. clear E1 E2.
  apply list_eq_same_length with n; [done..|]. intros i x y Hi X Y. destruct (A1 _ Hi) as (z1 & Z1), (A2 _ Hi) as (z2 & Z2).
  assert (x = Some z1) as -> by congruence. assert (y = Some z2) as -> by congruence. f_equal. unfold cells in Z1, Z2.
  destruct (c_label d1) as [a|]; [|by rewrite lookup_nil in Z1]. destruct (c_label d2) as [b|]; [|by rewrite lookup_nil in Z2]. exact (L i z1 z2 Z1 Z2).
Qed.
Lemma hier_against ds ds' f c1 c2 w1 w2 ec1 d1 w1' ec2 d2 w2' : hier_alike P ds ds' -> clp c1 c2 -> inv f w1 -> no_fail w2 ->
  run ds c1 w1 = Ok ((ec1, d1), w1') -> run ds' c2 w2 = Ok ((ec2, d2), w2') -> (f = true /\ ec1 <> ER_OK) \/ (ec1 = ec2 /\ (ec1 = ER_OK -> op clr d1 d2)).
Proof.
  intros (RM & RE & Hds & H) Hc Hi Hn E1 E2.
  pose proof (sh_hierarchical cfg f false P (H f false) qs log2cap Hqs ds ds' k batch c1 c2 Hds Hc w1 w2 (ec1, d1) w1' (ec2, d2) w2' Hi (or_intror Hn) E1 E2) as X.
  clear E1 E2. cbn [fst] in X. destruct X as [(_ & _ & X1 & X2)|[X|[X _]]]; [by right|by left|done].
Qed.
Lemma hier_alike_same f c c1 c2 w1 w2 ec1 d1 w1' ec2 d2 w2' : call0 c -> call1 c1 -> call2 c2 -> same_start c1 c2 ->
  (c_k c1 = 0 -> few_duplicates n D1 (2 * k) /\ few_duplicates n D2 (2 * k) /\ few_duplicates n D0 (2 * k)) -> inv f w1 -> no_fail w2 ->
  run ds1 c1 w1 = Ok ((ec1, Some d1), w1') -> run ds2 c2 w2 = Ok ((ec2, Some d2), w2') ->
  (f = true /\ ec1 <> ER_OK) \/ (ec1 = ec2 /\ (ec1 = ER_OK -> c_k d1 = c_k d2 /\ cells d1 = cells d2)).
Proof.
  intros H H1 H2 Hs Hd Hi Hn E1 E2.
  assert (exists c0, call0 c0 /\ clp c1 c0 /\ clp c2 c0 /\ (c_k c0 = 0 -> c_k c1 = 0) /\ (c_k c2 = 0 -> c_k c1 = 0)) as (c0 & H0 & P1 & P2 & K0 & K2).
  { destruct Hs as [[K1 K2]|Hs].
    - destruct (hier_bare _ _ _ _ _ _ _ _ _ c1 (hier_again _ _ _ _ _ _ _ _ _ _ _ _ _ c c1 H H1) K1) as (c0 & H0 & K0 & L0). exists c0. split; [exact H0|].
      split; [apply (hier_clp _ _ _ _ _ _ _ _ _ _ _ _ _ c1 c0 H1 H0); by left|]. split; [apply (hier_clp _ _ _ _ _ _ _ _ _ _ _ _ _ c2 c0 H2 H0); by left|done].
    - exists c2. pose proof (hier_again _ _ _ _ _ _ _ _ _ _ _ _ _ c c2 H H2) as H0. split; [exact H0|]. split; [apply (hier_clp _ _ _ _ _ _ _ _ _ _ _ _ _ c1 c2 H1 H0); by right|].
      destruct Hs as (K1 & K & L). split; [apply (hier_clp _ _ _ _ _ _ _ _ _ _ _ _ _ c2 c2 H2 H0); right; split; [congruence|done]|]. split; congruence. }
  destruct (hier_safe _ _ _ _ _ _ _ _ log2cap _ batch _ H0 w2) as (ec0 & d0 & w0' & E0).
  pose proof (hier_against ds1 ds0 f c1 c0 w1 w2 _ _ _ _ _ _ HA1 P1 Hi Hn E1 E0) as A1.
  pose proof (hier_against ds2 ds0 false c2 c0 w2 w2 _ _ _ _ _ _ HA2 P2 (or_intror Hn) Hn E2 E0) as A2.
  destruct A1 as [A1|[-> A1]]; [left; exact A1|]. destruct A2 as [[A2 _]|[-> A2]]; [exfalso; congruence|]. right. split; [reflexivity|]. intros ->.
  assert (c_k c1 = 0 -> few_duplicates n D1 (2 * k)) as F1 by (intros K; by apply Hd).
  assert (c_k c2 = 0 -> few_duplicates n D2 (2 * k)) as F2 by (intros K; apply Hd, K2, K).
  assert (c_k c0 = 0 -> few_duplicates n D0 (2 * k)) as F0 by (intros K; apply Hd, K0, K).
  destruct (hier_same_labels _ _ _ _ _ _ _ _ c1 c0 w1 w2 w1' w0' d1 d0 H1 H0 F1 F0 E1 E0 (A1 eq_refl)) as [B1 B2].
  destruct (hier_same_labels _ _ _ _ _ _ _ _ c2 c0 w2 w2 w2' w0' d2 d0 H2 H0 F2 F0 E2 E0 (A2 eq_refl)) as [B3 B4].
  clear E0 E1 E2. split; congruence.
Qed.
Lemma hier_alike_repeat c c1 c2 w1 w2 : call0 c -> call1 c1 -> call2 c2 -> same_start c1 c2 ->
  (c_k c1 = 0 -> few_duplicates n D1 (2 * k) /\ few_duplicates n D2 (2 * k) /\ few_duplicates n D0 (2 * k)) -> no_fail w1 -> no_fail w2 ->
  exists ec d1 w1' d2 w2', run ds1 c1 w1 = Ok ((ec, Some d1), w1') /\ run ds2 c2 w2 = Ok ((ec, Some d2), w2') /\ (ec = ER_OK -> c_k d1 = c_k d2 /\ cells d1 = cells d2).
Proof.
  intros H H1 H2 Hs Hd N1 N2. destruct (hier_safe _ _ _ _ _ _ _ _ log2cap _ batch _ H1 w1) as (ec1 & d1 & w1' & E1). destruct (hier_safe _ _ _ _ _ _ _ _ log2cap _ batch _ H2 w2) as (ec2 & d2 & w2' & E2).
  pose proof (hier_alike_same false c c1 c2 w1 w2 ec1 d1 w1' ec2 d2 w2' H H1 H2 Hs Hd (or_intror N1) N2 E1 E2) as [[A _]|[A B]]; [exfalso; congruence|].
  subst ec2. exists ec1, d1, w1', d2, w2'. split; [exact E1|]. split; [exact E2|exact B].
Qed.
Lemma hier_alike_survives c c1 c2 w1 w1' d1 w2 : call0 c -> call1 c1 -> call2 c2 -> same_start c1 c2 ->
  (c_k c1 = 0 -> few_duplicates n D1 (2 * k) /\ few_duplicates n D2 (2 * k) /\ few_duplicates n D0 (2 * k)) -> no_fail w2 ->
  run ds1 c1 w1 = Ok ((ER_OK, Some d1), w1') -> exists d2 w2', run ds2 c2 w2 = Ok ((ER_OK, Some d2), w2') /\ c_k d1 = c_k d2 /\ cells d1 = cells d2.
Proof.
  intros H H1 H2 Hs Hd N2 E1. destruct (hier_safe _ _ _ _ _ _ _ _ log2cap _ batch _ H2 w2) as (ec2 & d2 & w2' & E2).
  pose proof (hier_alike_same true c c1 c2 w1 w2 ER_OK d1 w1' ec2 d2 w2' H H1 H2 Hs Hd (or_introl eq_refl) N2 E1 E2) as [[_ A]|[A B]]; [exfalso; by apply A|].
  subst ec2. exists d2, w2'. split; [exact E2|by apply B].
Qed.
End Alike.

Section Claims.
Context (cfg : config) (P : provider) (V : pview P) (ds : p_ds P) (n : nat) (G : geometry) (D : dist_fun)
  (qs : world -> list (nat * double) -> list (nat * double)) (log2cap : nat -> nat -> nat) (k : nat) (batch : bool).
Notation call := (hier_call cfg P V ds n G D qs k).
Notation run c := (hierarchical_clustering cfg P qs log2cap ds k batch (Some c)).
Context (HP : hier_repeatable P) (Hqs : qsort_repeatable qs).
Lemma hier_repeat c1 c2 w1 w2 : call c1 -> call c2 -> same_start c1 c2 -> (c_k c1 = 0 -> few_duplicates n D (2 * k)) -> no_fail w1 -> no_fail w2 ->
  exists ec d1 w1' d2 w2', run c1 w1 = Ok ((ec, Some d1), w1') /\ run c2 w2 = Ok ((ec, Some d2), w2') /\ (ec = ER_OK -> c_k d1 = c_k d2 /\ cells d1 = cells d2).
Proof.
  intros H1 H2 Hs Hd. pose proof (hier_repeatable_alike P ds HP) as A.
  exact (hier_alike_repeat cfg P n qs log2cap k batch V V V ds ds ds G G G D D D A A Hqs c1 c1 c2 w1 w2 H1 H1 H2 Hs (fun K => conj (Hd K) (conj (Hd K) (Hd K)))).
Qed.
Lemma hier_survives c1 c2 w1 w1' d1 w2 : call c1 -> call c2 -> same_start c1 c2 -> (c_k c1 = 0 -> few_duplicates n D (2 * k)) -> no_fail w2 ->
  run c1 w1 = Ok ((ER_OK, Some d1), w1') -> exists d2 w2', run c2 w2 = Ok ((ER_OK, Some d2), w2') /\ c_k d1 = c_k d2 /\ cells d1 = cells d2.
Proof.
  intros H1 H2 Hs Hd. pose proof (hier_repeatable_alike P ds HP) as A.
  exact (hier_alike_survives cfg P n qs log2cap k batch V V V ds ds ds G G G D D D A A Hqs c1 c1 c2 w1 w1' d1 w2 H1 H1 H2 Hs (fun K => conj (Hd K) (conj (Hd K) (Hd K)))).
Qed.
End Claims.

(** ** Examples *)

Lemma hier_repeat_run : qsort_repeatable sort_edges /\ hier_callable pts 2 (new_clustering 12) /\ hier_callable pts 2 SameClaims.old_clustering /\
  same_start (new_clustering 12) SameClaims.old_clustering /\ few_duplicates 12 (eucl (line pts)) (2 * 2) /\ no_fail world0 /\ no_fail world_used /\
  ends (hier_line pts 2 false (new_clustering 12) world0) ER_OK 5 [4; 2; 4; 3; 1; 0; 2; 3; 0; 0; 1; 4]%Z 1 /\
  ends (hier_line pts 2 false SameClaims.old_clustering world_used) ER_OK 5 [4; 2; 4; 3; 1; 0; 2; 3; 0; 0; 1; 4]%Z 3.
Proof.
  split; [done|]. split; [apply hier_callable_by; try done; simpl; lia|]. split; [apply hier_callable_by; try done; simpl; lia|]. split; [by left|].
  split; [apply few_duplicates_by; by vm_compute|]. do 2 (split; [by intros ? ?|]). split; apply ends_by; by vm_compute.
Qed.
Lemma hier_survive_run : hier_callable pts 2 old3 /\ same_start old3 old3 /\ ~ no_fail (world_old (fun j => bool_decide (100 <= j))) /\
  ends (hier_line pts 2 false old3 (world_old (fun j => bool_decide (100 <= j)))) ER_OK 4 [3; 3; 3; 4294967295; 1; 2; 1; 1; 2; 0; 0; 0]%Z 1 /\
  ends (hier_line pts 2 false old3 (world_old (fun _ => false))) ER_OK 4 [3; 3; 3; 4294967295; 1; 2; 1; 1; 2; 0; 0; 0]%Z 1.
Proof.
  split; [apply hier_callable_by; try done; simpl; lia|]. split; [by right|]. split; [intros H; by specialize (H 100 ltac:(simpl; lia))|]. split; apply ends_by; by vm_compute.
Qed.
