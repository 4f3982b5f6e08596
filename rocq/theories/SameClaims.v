(** What the comparison of runs says about calls of scc_sc_clustering. *)

From stdpp Require Import prelude list sorting.
From Coq Require Import NArith ZArith.
From Verif Require Import Base World Mem Digraph DigraphRep Float Spi Dist Options Arrays GraphSpec SeedSpec AssignSpec SeedsExcl
  Nng NngGraph NngSize NngAssign NngStage TypeCount TypeRows Batch BatchSpec BatchProof OptionsProof NngClustering
  ScSpec ScProof ClusSpec ScFacts Approx ScClaims ScClaims2 DistProof Example1 Example2 FailClaims Report Same.

(** Search functions whose answers depend on their arguments only: the same objects,
    as far as [RN] tells, give the same answers, unless an allocation fails. *)
Definition repeatable (P : provider) : Prop := exists RN : NNRel (p_nn P), forall f1 f2, @provider_same f1 f2 P RN eq eq True.
(** The same for two data sets. *)
Definition alike (P : provider) (ds ds' : p_ds P) : Prop := exists (RN : NNRel (p_nn P)) (RD : NNRel (p_ds P)), RD ds ds' /\ forall f1 f2, @provider_same f1 f2 P RN RD eq True.
Lemma repeatable_alike P ds : repeatable P -> alike P ds ds.
Proof. intros [RN H]. by exists RN, eq. Qed.

(** The same for two data sets with options that differ in the supplied radii. *)
Definition calls_alike (P : provider) (ds : p_ds P) (o : options) (ds' : p_ds P) (o' : options) : Prop :=
  exists (RN : NNRel (p_nn P)) (RD : NNRel (p_ds P)) (RR : RadRel) (Est : Prop) x y z, RD ds ds' /\ (forall f1 f2, @provider_same f1 f2 P RN RD RR Est) /\
    o' = set_radii o x y z /\ @same_radii RR o x y z /\ (Est \/ ~ estimates o).
Lemma alike_calls P ds ds' o : alike P ds ds' -> calls_alike P ds o ds' o.
Proof. intros (RN & RD & H & HP). exists RN, RD, eq, True, (o_srad_val o), (o_prad_val o), (o_2rad_val o). splits; try done; [by destruct o|by left]. Qed.

(** ** The built-in functions *)

Definition so_same : NNRel (p_nn builtin) := fun (o o' : sobj) => so_ds o = so_ds o' /\ so_set o = so_set o'.
Lemma builtin_repeatable : repeatable builtin.
Proof.
  exists so_same. intros f1 f2. constructor; cbn [p_rows p_nn_init p_nn_search p_nn_close builtin p_nn p_ds].
  - by intros ds ? <-.
  - by intros ds ? <-.
  - intros ds ? q c _ <-. unfold imp_rows. apply rM_lift0, rR_refl.
  - intros ds ? s <-. unfold imp_init. eapply rM_bind; [apply rM_malloc| |intros _ ? ->; by apply res_ret|intros _ ? ->; by apply res_ret].
    intros [a|] [b|] H; try done; by apply rM_ret.
  - intros o o' q k r r' [E1 E2] Hr. assert (r = r') as <- by (destruct r, r'; try done; simpl in Hr; by rewrite Hr). unfold imp_nn_search. rewrite <- E1, <- E2. eapply (rM_bind _ _ (fun _ => False) (fun _ _ => True)).
    { apply rM_keep; intros w a w'; unfold deref; destruct (decide _); try done; intros [= <- <-]; by split. }
    2, 3: done. intros _ _ _. eapply (rM_bind _ _ (fun r => r = None) (fun x y => op (fun a b => a_cells a = a_cells b) x y)).
    { unfold malloc_arr. eapply rM_bind; [apply rM_malloc| |intros _ ? ->; by apply res_ret|intros _ ? ->; by apply res_ret].
      intros [a|] [b|] H; try done; by apply rM_ret. }
    2, 3: intros _ ? ->; by apply res_ret.
    intros [a|] [b|] H; try done; [|by apply rM_ret]. simpl in H. rewrite <- H. apply (rM_lift _ _ eq); [apply rR_refl|]. intros x ? <-.
    eapply (rM_bind _ _ (fun _ => False) (fun _ _ => True)); [apply rM_free_arr| |done|done]. intros _ _ _. by apply rM_ret.
  - intros o o' _. unfold imp_close. eapply (rM_bind _ _ (fun _ => False) (fun _ _ => True)); [apply rM_keep; intros w a w'; apply wle_free| |done|done]. intros _ _ _. by apply rM_ret.
  - intros o o' _. unfold imp_close. eapply (rM_bind _ _ (fun _ => False) (fun _ _ => True)); [apply rM_keep; intros w a w'; apply wle_free| |done|done]. intros _ _ _. by apply rM_ret.
  - by intros r ? <-.
  - done.
Qed.

(** ** Calls *)

(** A clustering without clusters, as scc_init_empty_clustering and
    scc_init_existing_clustering leave it apart from its labels. *)
Definition unused (cfg : config) (n : nat) (c : clustering) : Prop := is_initialized_clustering cfg (Some c) = true /\ c_n c = n /\ c_k c = 0.
(** The steps whose failures go unreported are not part of the call: with these
    options neither iscc_assign_by_nng nor the second stage of the assignment is
    reached. *)
Definition reports_all (o : options) : Prop :=
  o_seed o = SM_BATCHES \/ (o_sum o = UM_IGNORE /\ o_pum o <> UM_ANY_NEIGHBOR /\ (o_num_types o < 2 -> o_pum o <> UM_CLOSEST_ASSIGNED)).

Lemma call_again cfg P V ds n G D o c c0 : call_ok cfg P V ds n G D o c -> clu_ok c0 -> call_ok cfg P V ds n G D o c0.
Proof. intros [] ?. by constructor. Qed.
Lemma clw_of cfg m c : unused cfg m c -> forall c0, unused cfg m c0 -> c_label c0 = None -> clw c c0.
Proof.
  intros (I1 & N1 & K1) c0 (I2 & N2 & K2) L. unfold clw. rewrite L. splits; [|congruence|congruence|by intros ? ? _].
  unfold is_initialized_clustering in *. destruct (decide (c_version c <> _)) as [|V1]; [done|]. destruct (decide (c_version c0 <> _)) as [|V2]; [done|].
  apply dec_stable in V1, V2. congruence.
Qed.
Lemma unused_bare cfg m c : unused cfg m c -> exists c0, unused cfg m c0 /\ c_label c0 = None /\ clu_ok c0.
Proof.
  intros (I & N & K). exists (Clu (c_version c) (c_n c) 0 None false). splits; try done. split; [|done].
  unfold is_initialized_clustering in *. cbn [c_version c_n c_k c_label]. rewrite K in I.
  repeat match goal with |- (if ?x then _ else _) = _ => destruct x; [try done|] end; try done. all: try (destruct (decide (0 < 0)); [lia|done]).
Qed.
Lemma same_labels cfg P V1 ds1 n G1 D1 o1 V2 ds2 G2 D2 o2 c1 c2 w1 w2 w1' w2' d1 d2 : call_ok cfg P V1 ds1 n G1 D1 o1 c1 -> call_ok cfg P V2 ds2 n G2 D2 o2 c2 ->
  sc_clustering cfg P ds1 (Some o1) (Some c1) w1 = Ok ((ER_OK, Some d1), w1') -> sc_clustering cfg P ds2 (Some o2) (Some c2) w2 = Ok ((ER_OK, Some d2), w2') ->
  clr d1 d2 -> c_k d1 = c_k d2 /\ cells d1 = cells d2.
Proof.
  intros H1 H2 E1 E2 (_ & _ & K & L). split; [done|].
  pose proof (claim_labels _ _ _ _ _ _ _ _ _ H1 _ _ _ E1) as (_ & _ & N1 & A1 & _). pose proof (claim_labels _ _ _ _ _ _ _ _ _ H2 _ _ _ E2) as (_ & _ & N2 & A2 & _). clear E1 E2.
  assert (forall d x, (unlabelled cfg d x \/ exists i, i < c_k d /\ label_of d x = Some (Z.of_nat i)) -> exists z, cells d !! x = Some (Some z)) as Hd.
  { intros d x Hl. assert (exists z, label_of d x = Some z) as (z & Hz) by (destruct Hl as [Hl|(i & _ & Hl)]; eauto). unfold label_of in Hz. exists z. destruct (cells d !! x) as [[?|]|]; simpl in Hz; congruence. }
  apply list_eq_same_length with n; [done..|]. intros i x y Hi X Y. destruct (Hd d1 i (A1 _ Hi)) as (z1 & Z1), (Hd d2 i (A2 _ Hi)) as (z2 & Z2).
  assert (x = Some z1) as -> by congruence. assert (y = Some z2) as -> by congruence. f_equal. unfold cells in Z1, Z2.
  destruct (c_label d1) as [a|]; [|by rewrite lookup_nil in Z1]. destruct (c_label d2) as [b|]; [|by rewrite lookup_nil in Z2]. exact (L i z1 z2 Z1 Z2).
Qed.

(** The run with clustering [c] in [w] against one with label memory of its own. *)
Lemma against cfg P o o0 m ds ds0 f c c0 w w0 ec d w' ec0 d0 w0' : calls_alike P ds o ds0 o0 -> unused cfg m c -> unused cfg m c0 -> c_label c0 = None ->
  inv f w -> (f = true -> reports_all o) -> no_fail w0 ->
  sc_clustering cfg P ds (Some o) (Some c) w = Ok ((ec, d), w') -> sc_clustering cfg P ds0 (Some o0) (Some c0) w0 = Ok ((ec0, d0), w0') ->
  (f = true /\ ec <> ER_OK) \/ (ec = ec0 /\ (ec = ER_OK -> op clr d d0)).
Proof.
  intros (RN & RD & RR & Est & x & y & z & Hds & HP & -> & Hr & He) Hu Hu0 Hl Hi Hf Hn E E0.
  assert (o_seed o <> SM_BATCHES -> keeps f false (bool_decide (o_num_types o < 2)) (o_pum o) (o_sum o)) as Hk.
  { intros Hs. destruct f; [right|by left]. destruct (Hf eq_refl) as [?|(H1 & H2 & H3)]; [done|]. splits; try done. rewrite bool_decide_eq_true. intros [H4 H5]. by apply H3. }
  pose proof (sm_sc_clustering cfg f false P (HP f false) ds ds0 o x y z c c0 Hr He Hds Hk (clw_of cfg m c Hu c0 Hu0 Hl) (proj2 (proj2 Hu)) w w0 (ec, d) w' (ec0, d0) w0' Hi (or_intror Hn) E E0) as H.
  clear E E0. cbn [fst] in H. destruct H as [(_ & _ & H1 & H2)|[H|[H _]]]; [by right|by left|done].
Qed.

(** Two calls that are like a third. *)
Section Alike.
Context (cfg : config) (P : provider) (n : nat) (o1 o2 o0 : options) (m : nat) (V1 V2 V0 : pview P) (ds1 ds2 ds0 : p_ds P) (G1 G2 G0 : geometry) (D1 D2 D0 : dist_fun).
Context (A1 : calls_alike P ds1 o1 ds0 o0) (A2 : calls_alike P ds2 o2 ds0 o0).
Notation call1 := (call_ok cfg P V1 ds1 n G1 D1 o1).
Notation call2 := (call_ok cfg P V2 ds2 n G2 D2 o2).
Notation call0 := (call_ok cfg P V0 ds0 n G0 D0 o0).

(** Two runs, the second without failing allocations. *)
Lemma alike_same f c c1 c2 w1 w2 ec1 d1 w1' ec2 d2 w2' : call0 c -> call1 c1 -> call2 c2 -> unused cfg m c1 -> unused cfg m c2 ->
  inv f w1 -> (f = true -> reports_all o1) -> no_fail w2 ->
  sc_clustering cfg P ds1 (Some o1) (Some c1) w1 = Ok ((ec1, Some d1), w1') -> sc_clustering cfg P ds2 (Some o2) (Some c2) w2 = Ok ((ec2, Some d2), w2') ->
  (f = true /\ ec1 <> ER_OK) \/ (ec1 = ec2 /\ (ec1 = ER_OK -> c_k d1 = c_k d2 /\ cells d1 = cells d2)).
Proof.
  intros H H1 H2 U1 U2 Hi Hf Hn E1 E2. destruct (unused_bare cfg m c1 U1) as (c0 & U0 & L0 & K0). pose proof (call_again _ _ _ _ _ _ _ _ c c0 H K0) as H0.
  destruct (claim_safe _ _ _ _ _ _ _ _ _ H0 w2 Hn) as (ec0 & d0 & w0' & E0).
  pose proof (against cfg P o1 o0 m ds1 ds0 f c1 c0 w1 w2 ec1 (Some d1) w1' ec0 (Some d0) w0' A1 U1 U0 L0 Hi Hf Hn E1 E0) as B1.
  pose proof (against cfg P o2 o0 m ds2 ds0 false c2 c0 w2 w2 ec2 (Some d2) w2' ec0 (Some d0) w0' A2 U2 U0 L0 (or_intror Hn) ltac:(intros; congruence) Hn E2 E0) as B2.
  destruct B1 as [B1|[-> B1]]; [left; exact B1|]. destruct B2 as [[B2 _]|[-> B2]]; [exfalso; congruence|]. right. split; [reflexivity|]. intros ->.
  destruct (same_labels _ _ _ _ _ _ _ _ _ _ _ _ _ c1 c0 w1 w2 w1' w0' d1 d0 H1 H0 E1 E0 (B1 eq_refl)) as [X1 X2]. destruct (same_labels _ _ _ _ _ _ _ _ _ _ _ _ _ c2 c0 w2 w2 w2' w0' d2 d0 H2 H0 E2 E0 (B2 eq_refl)) as [X3 X4].
  clear E0 E1 E2. split; congruence.
Qed.
Lemma alike_repeat c c1 c2 w1 w2 : call0 c -> call1 c1 -> call2 c2 -> unused cfg m c1 -> unused cfg m c2 -> no_fail w1 -> no_fail w2 ->
  exists ec d1 w1' d2 w2', sc_clustering cfg P ds1 (Some o1) (Some c1) w1 = Ok ((ec, Some d1), w1') /\ sc_clustering cfg P ds2 (Some o2) (Some c2) w2 = Ok ((ec, Some d2), w2') /\
    (ec = ER_OK -> c_k d1 = c_k d2 /\ cells d1 = cells d2).
Proof.
  intros H H1 H2 U1 U2 N1 N2. destruct (claim_safe _ _ _ _ _ _ _ _ _ H1 w1 N1) as (ec1 & d1 & w1' & E1). destruct (claim_safe _ _ _ _ _ _ _ _ _ H2 w2 N2) as (ec2 & d2 & w2' & E2).
  pose proof (alike_same false c c1 c2 w1 w2 ec1 d1 w1' ec2 d2 w2' H H1 H2 U1 U2 (or_intror N1) ltac:(intros; congruence) N2 E1 E2) as [[A _]|[A B]]; [exfalso; congruence|].
  subst ec2. exists ec1, d1, w1', d2, w2'. split; [exact E1|]. split; [exact E2|exact B].
Qed.
Lemma alike_survives c c1 c2 w1 w1' d1 w2 : call0 c -> call1 c1 -> call2 c2 -> unused cfg m c1 -> unused cfg m c2 -> reports_all o1 -> no_fail w2 ->
  sc_clustering cfg P ds1 (Some o1) (Some c1) w1 = Ok ((ER_OK, Some d1), w1') ->
  exists d2 w2', sc_clustering cfg P ds2 (Some o2) (Some c2) w2 = Ok ((ER_OK, Some d2), w2') /\ c_k d1 = c_k d2 /\ cells d1 = cells d2.
Proof.
  intros H H1 H2 U1 U2 Hr N2 E1. destruct (claim_safe _ _ _ _ _ _ _ _ _ H2 w2 N2) as (ec2 & d2 & w2' & E2).
  pose proof (alike_same true c c1 c2 w1 w2 ER_OK d1 w1' ec2 d2 w2' H H1 H2 U1 U2 (or_introl eq_refl) (fun _ => Hr) N2 E1 E2) as [[_ A]|[A B]]; [exfalso; by apply A|].
  subst ec2. exists d2, w2'. split; [exact E2|by apply B].
Qed.
End Alike.

Section Claims.
Context (cfg : config) (P : provider) (V : pview P) (ds : p_ds P) (n : nat) (G : geometry) (D : dist_fun) (o : options) (m : nat).
Lemma claim_repeat c1 c2 w1 w2 : repeatable P -> call_ok cfg P V ds n G D o c1 -> call_ok cfg P V ds n G D o c2 -> unused cfg m c1 -> unused cfg m c2 -> no_fail w1 -> no_fail w2 ->
  exists ec d1 w1' d2 w2', sc_clustering cfg P ds (Some o) (Some c1) w1 = Ok ((ec, Some d1), w1') /\ sc_clustering cfg P ds (Some o) (Some c2) w2 = Ok ((ec, Some d2), w2') /\
    (ec = ER_OK -> c_k d1 = c_k d2 /\ cells d1 = cells d2).
Proof. intros HP H1 H2. pose proof (alike_calls P ds ds o (repeatable_alike P ds HP)) as A. exact (alike_repeat cfg P n o o o m V V V ds ds ds G G G D D D A A c1 c1 c2 w1 w2 H1 H1 H2). Qed.
Lemma claim_survives c1 c2 w1 w1' d1 w2 : repeatable P -> call_ok cfg P V ds n G D o c1 -> call_ok cfg P V ds n G D o c2 -> unused cfg m c1 -> unused cfg m c2 -> reports_all o -> no_fail w2 ->
  sc_clustering cfg P ds (Some o) (Some c1) w1 = Ok ((ER_OK, Some d1), w1') ->
  exists d2 w2', sc_clustering cfg P ds (Some o) (Some c2) w2 = Ok ((ER_OK, Some d2), w2') /\ c_k d1 = c_k d2 /\ cells d1 = cells d2.
Proof. intros HP H1 H2. pose proof (alike_calls P ds ds o (repeatable_alike P ds HP)) as A. exact (alike_survives cfg P n o o o m V V V ds ds ds G G G D D D A A c1 c1 c2 w1 w1' d1 w2 H1 H1 H2). Qed.
End Claims.

(** Whatever fails, the call returns. *)
Lemma claim_checked cfg P V ds n G D o c : call_ok cfg P V ds n G D o c -> null_checked o ->
  forall w, exists ec c' w', sc_clustering cfg P ds (Some o) (Some c) w = Ok ((ec, Some c'), w').
Proof.
  intros Hc Hn w. pose proof (run_sat_checked _ _ _ _ _ _ _ _ _ Hc none _ w (choice_any _ _ _ _ _ _ _ _ _ Hc) (or_intror (or_intror Hn))) as H.
  apply Msat_none_inv in H as ([ec cl] & w' & E & c' & lk & -> & _). exists ec, c', w'. exact E.
Qed.

(** ** Examples *)

(** The user's label array, with old labels in it. *)
Definition old_clustering : clustering :=
  Clu clustering_version 12 0 (Some (Arr 100 (Some <$> [5; 5; 5; 0; 0; 0; 1; 1; 1; 7; 7; 7]%Z))) true.
(** A world in which much has happened. *)
Definition world_used : world := World (fun _ => false) 200 [100; 150; 7] (ErrSt ER_NO_SOLUTION None (e_file no_errst) 3) 11 0.
Definition run_old (o : options) (w : world) : R (ecode * option clustering * world) :=
  sc_clustering default_config builtin (Some (line pts)) (Some o) (Some old_clustering) w.
Definition callable_old (o : options) : Prop :=
  call_ok default_config builtin (builtin_view (line pts) 12) (Some (line pts)) 12 (eucl_geo (line pts)) (eucl (line pts)) o old_clustering.
Lemma callable_old_by o : callable pts o -> callable_old o.
Proof. intros H. by eapply call_again. Qed.
Lemma unused_new : unused default_config 12 (new_clustering 12).
Proof. done. Qed.
Lemma unused_old : unused default_config 12 old_clustering.
Proof. done. Qed.
Definition survive_options : options := with_methods SM_LEXICAL UM_CLOSEST_SEED UM_IGNORE (with_types [1; 2] [0; 1; 0; 1; 0; 1; 0; 1; 0; 1; 0; 1] (with_size 4 default_options)).
Definition plain_options : options := with_methods SM_INWARDS_UPDATING UM_IGNORE UM_IGNORE (with_size 3 default_options).
