(** Clusters are numbered in the order of their seeds. *)

From stdpp Require Import prelude list sorting.
From Coq Require Import NArith ZArith.
From Verif Require Import Base World Mem Digraph DigraphRep Float Spi Dist Options Arrays GraphSpec SeedSpec AssignSpec SeedsExcl
  Nng NngGraph NngSize NngAssign NngStage Batch BatchSpec BatchProof OptionsProof NngClustering
  ScSpec ScProof ClusSpec ScFacts Approx ScClaims ScClaims2 ScClaims3 DistProof Example1.
From Verif Require Groups.

Notation increasing := (StronglySorted lt).

Lemma increasing_snoc l v : increasing l -> (forall a, a ∈ l -> a < v) -> increasing (l ++ [v]).
Proof.
  intros H Hl. induction H as [|a l H IH Ha]; simpl; [repeat constructor|]. constructor.
  - apply IH. intros b Hb. apply Hl. by right.
  - apply Forall_app. split; [done|]. constructor; [|done]. apply Hl. left.
Qed.
Lemma increasing_seq a m : increasing (seq a m).
Proof. revert a. induction m as [|m IH]; intros a; simpl; [constructor|]. constructor; [done|]. apply Forall_forall. intros x Hx%elem_of_seq. lia. Qed.
Lemma increasing_filter (Q : nat -> Prop) `{!forall x, Decision (Q x)} l : increasing l -> increasing (filter Q l).
Proof.
  induction 1 as [|a l Hi IH Ha]; [constructor|]. rewrite filter_cons. case_decide; [|done]. constructor; [done|]. apply Forall_forall. rewrite Forall_forall in Ha.
  intros x [_ Hx]%elem_of_list_filter. auto.
Qed.
Lemma increasing_lookup l i j a b : increasing l -> l !! i = Some a -> l !! j = Some b -> i < j -> a < b.
Proof.
  intros H. revert i j. induction H as [|c l H IH Hc]; intros i j Hi Hj Hij; [done|]. destruct j as [|j]; [lia|]. destruct i as [|i]; simpl in *.
  - injection Hi as ->. rewrite Forall_forall in Hc. by eapply Hc, elem_of_list_lookup_2.
  - eapply IH; eauto. lia.
Qed.

(** ** Lexical order *)

Lemma greedy_increasing g acc ord : increasing acc -> increasing ord -> (forall a v, a ∈ acc -> v ∈ ord -> a < v) -> increasing (greedy g acc ord).
Proof.
  revert acc. induction ord as [|v ord IH]; intros acc Ha Ho H; simpl; [done|]. inversion Ho as [|? ? Ho' Hv]; subst. rewrite Forall_forall in Hv. apply IH; [|done|].
  - case_decide; [|done]. apply increasing_snoc; [done|]. intros a Hin. apply H; [done|left].
  - intros a u Hin Hu. case_decide; [|apply H; [done|by right]]. apply elem_of_app in Hin as [Hin|Hin%elem_of_list_singleton]; [apply H; [done|by right]|]. subst a. by apply Hv.
Qed.
Lemma greedy_head g s acc ord : exists r, greedy g (s :: acc) ord = s :: r.
Proof. revert acc. induction ord as [|v ord IH]; intros acc; simpl; [by eexists|]. case_decide; [|apply IH]. apply (IH (acc ++ [v])). Qed.
Lemma greedy_least g ord x : increasing ord -> x ∈ ord -> adj g x <> [] -> exists s r, greedy g [] ord = s :: r /\ s <= x.
Proof.
  induction 1 as [|v ord Ho IH Hv]; intros Hx Hadj; [by apply elem_of_nil in Hx|]. simpl. rewrite Forall_forall in Hv. case_decide as Ha.
  - destruct (greedy_head g v [] ord) as [r Hr]. exists v, r. split; [exact Hr|]. apply elem_of_cons in Hx as [->|Hx]; [done|]. specialize (Hv x Hx). lia.
  - apply elem_of_cons in Hx as [->|Hx]; [|by apply IH]. exfalso. apply Ha. split; [done|]. apply Forall_forall. intros u _ (s & Hs & _). by apply elem_of_nil in Hs.
Qed.

(** ** Batches *)

Section Batches.
Context (ign : bool) (k n : nat) (N : nat -> list nat -> Prop).
Hypothesis (Hk : 0 < k) (HN : forall v c, v < n -> N v c -> NoDup c /\ length c = k /\ Forall (fun x => x < n) c).

Record seeded (ss : list nat) (s : bstate) : Prop := {
  sd_len : length s.1.2 = n;
  sd_num : length ss = s.2;
  sd_inc : increasing ss;
  sd_lab : forall i a, ss !! i = Some a -> a < n /\ a ∈ s.1.1 /\ lab s.1.2 a = Some i
}.

Lemma step_seeded v s s' ss : v < n -> (forall a, a ∈ ss -> a < v) -> seeded ss s -> batch_step ign k N v s s' ->
  exists t, seeded (ss ++ t) s' /\ (t = [] \/ t = [v]).
Proof.
  intros Hv Hlt [S1 S2 S3 S4] Hst. destruct Hst as [A L m HA|A L m c HA Hc Hno|A L m c j x HA Hc Hf]; simpl in *.
  - exists []. split; [|by left]. rewrite app_nil_r. by constructor.
  - exists [v]. split; [|by right]. destruct (members_facts k n N Hk HN v c Hv Hc) as (_ & _ & M3 & _ & M5). constructor; simpl.
    + by rewrite give_length.
    + rewrite app_length. simpl. lia.
    + by apply increasing_snoc.
    + intros i a Hi. apply lookup_app_Some in Hi as [Hi|[Hl Hi]].
      * destruct (S4 i a Hi) as (H1 & H2 & H3). split; [done|]. split; [apply elem_of_app; by right|]. rewrite lab_give by lia. rewrite decide_False; [done|].
        intros Hm. destruct (M5 a Hm) as [->|Hac]; [done|]. by eapply Hno.
      * apply list_lookup_singleton_Some in Hi as [Hi <-]. split; [done|]. split; [apply elem_of_app; by left|]. rewrite lab_give by lia. rewrite decide_True by done. f_equal. lia.
  - exists []. split; [|by left]. rewrite app_nil_r. destruct ign; [by constructor|]. constructor; simpl; [by rewrite insert_length|done|done|].
    intros i a Hi. destruct (S4 i a Hi) as (H1 & H2 & H3). split; [done|]. split; [done|]. rewrite lab_insert by lia. case_decide; [subst; done|done].
Qed.

Lemma run_seeded vs s s' ss : increasing vs -> Forall (fun v => v < n) vs -> (forall a v, a ∈ ss -> v ∈ vs -> a < v) -> seeded ss s -> batch_run ign k N vs s s' ->
  exists t, seeded (ss ++ t) s' /\ forall a, a ∈ t -> a ∈ vs.
Proof.
  revert s ss. induction vs as [|v vs IH]; intros s ss Hi Hn Hlt Hs Hr.
  - inversion Hr; subst. exists []. rewrite app_nil_r. split; [done|]. intros a Ha. by apply elem_of_nil in Ha.
  - inversion Hi as [|? ? Hi' Hv]; subst. apply Forall_cons in Hn as [Hvn Hn]. inversion_clear Hr as [|? ? ? s1 ? Hst Hr']. rewrite Forall_forall in Hv.
    destruct (step_seeded v s s1 ss Hvn ltac:(intros a Ha; apply Hlt; [done|left]) Hs Hst) as (t & Ht & Hor).
    destruct (IH s1 (ss ++ t) Hi' Hn ltac:(intros a u Ha Hu; apply elem_of_app in Ha as [Ha|Ha]; [apply Hlt; [done|by right]|destruct Hor as [->| ->]; [by apply elem_of_nil in Ha|apply elem_of_list_singleton in Ha as ->; by apply Hv]]) Ht Hr') as (t' & Ht' & Hin).
    exists (t ++ t'). rewrite app_assoc. split; [done|]. intros a [Ha|Ha]%elem_of_app; [|right; by apply Hin].
    destruct Hor as [->| ->]; [by apply elem_of_nil in Ha|]. apply elem_of_list_singleton in Ha as ->. left.
Qed.

(** The first point considered is the first seed. *)
Lemma first_seeded v vs s' : increasing (v :: vs) -> Forall (fun v => v < n) (v :: vs) -> batch_run ign k N (v :: vs) ([], replicate n None, 0) s' ->
  exists t, seeded (v :: t) s' /\ forall a, a ∈ t -> a ∈ vs.
Proof.
  intros Hi Hn Hr. inversion Hi as [|? ? Hi' Hv]; subst. apply Forall_cons in Hn as [Hvn Hn]. inversion_clear Hr as [|? ? ? s1 ? Hst Hr']. rewrite Forall_forall in Hv.
  assert (seeded [] ([], replicate n None, 0)) as H0. { constructor; simpl; [by rewrite replicate_length|done|constructor|done]. }
  destruct (step_seeded v _ s1 [] Hvn ltac:(intros a Ha; by apply elem_of_nil in Ha) H0 Hst) as (t & Ht & Hor). simpl in Ht.
  assert (t = [v]) as ->.
  { destruct Hor as [->| ->]; [|done]. exfalso. destruct Ht as [_ Ht _ _]. inversion Hst as [? ? ? HA|? ? ? ? ? ? ?|? ? ? ? ? ? ? ? Hf]; subst; simpl in *.
    - by apply elem_of_nil in HA.
    - lia.
    - apply list_find_Some in Hf as (_ & Hx & _). by apply elem_of_nil in Hx. }
  destruct (run_seeded vs s1 s' [v] Hi' Hn ltac:(intros a u Ha Hu; apply elem_of_list_singleton in Ha as ->; by apply Hv) Ht Hr') as (t' & Ht' & Hin). exists t'. done.
Qed.
End Batches.

(** ** Claims *)

Lemma claim_seed_order cfg P V ds n G D o c w w' c' : call_ok cfg P V ds n G D o c -> o_seed o = SM_LEXICAL \/ o_seed o = SM_BATCHES ->
  sc_clustering cfg P ds (Some o) (Some c) w = Ok ((ER_OK, Some c'), w') ->
  exists ss, length ss = c_k c' /\ increasing ss /\ (forall i s, ss !! i = Some s -> seedable o n G s /\ s ∈ cluster c' i) /\
    (forall x, seedable o n G x -> exists s, ss !! 0 = Some s /\ s <= x).
Proof.
  intros H Hsm E. destruct Hsm as [Hsm|Hsm].
  - destruct (run_plain _ _ _ _ _ _ _ _ _ H w w' c' E ltac:(congruence)) as (Hv & Hs & Hn & L & m & g & ss & Hh & Hm & Hr). pose proof Hh as [_ Hk].
    pose proof (res_len _ _ _ _ _ _ _ _ _ Hr) as Hl. pose proof (res_lt _ _ _ _ _ _ _ _ _ Hr) as Hlt. pose proof (sr_spec _ _ _ _ _ _ _ _ _ Hr) as Hsp. rewrite Hsm in Hsp. simpl in Hsp.
    pose proof (sr_num _ _ _ _ _ _ _ _ _ Hr) as Hnum. exists ss. split; [congruence|]. split; [|split].
    + rewrite Hsp. apply greedy_increasing; [constructor|apply increasing_seq|]. intros a v Ha. by apply elem_of_nil in Ha.
    + intros i s Hi. split; [eapply (res_seed _ _ _ _ _ _ _ _ _ Hv Hs Hr); by eapply elem_of_list_lookup_2|].
      eapply (lab_cluster _ _ _ _ _ _ _ _ _ H); eauto; [rewrite Hnum; by eapply lookup_lt_Some|]. eapply (res_group _ _ _ _ _ _ _ _ _ Hv Hs Hr); eauto. unfold closed. left.
    + intros x Hx. pose proof (sr_graph _ _ _ _ _ _ _ _ _ Hr) as Hg. assert (adj g x <> []) as Hadj by (by eapply (nng_graph_seedable o n G Hv Hs)).
      destruct (greedy_least g (seq 0 (length g)) x (increasing_seq _ _)) as (s & r & Hsr & Hle); [|done|].
      * apply elem_of_seq. split; [lia|]. simpl. unfold adj in Hadj. destruct (g !! x) eqn:Eg; [by eapply lookup_lt_Some|done].
      * exists s. rewrite Hsp, Hsr. done.
  - destruct (run_batches _ _ _ _ _ _ _ _ _ H w w' c' E Hsm) as (Hv & Hs & Hn & L & m & A & Hh & Hm & Hr). pose proof Hh as [_ Hk].
    pose proof (bres_len _ _ _ _ _ _ _ Hr) as Hl. pose proof (bres_lt _ _ _ _ _ _ _ Hr) as Hlt. pose proof (ov_size _ _ Hv) as Hsz. destruct Hr as [_ Hrun _ Hm0].
    destruct (ov_batches _ _ Hv Hsm) as [Ht _].
    assert (forall x, x ∈ candidates n G (o_size o) (srad_of o) (primary o n) (seq 0 n) <-> seedable o n G x /\ x < n) as Hcand.
    { intros x. unfold candidates, seedable. rewrite elem_of_list_filter, elem_of_seq. rewrite decide_True by lia. split; intros (? & ?); (split; [done|lia]). }
    assert (increasing (candidates n G (o_size o) (srad_of o) (primary o n) (seq 0 n))) as Hinc by apply increasing_filter, increasing_seq.
    assert (Forall (fun v => v < n) (candidates n G (o_size o) (srad_of o) (primary o n) (seq 0 n))) as Hcn. { apply Forall_forall. intros x Hx. by apply Hcand in Hx as [_ ?]. }
    destruct (candidates n G (o_size o) (srad_of o) (primary o n) (seq 0 n)) as [|v vs] eqn:Ec; [inversion Hrun; subst; done|].
    destruct (first_seeded _ (o_size o) n _ ltac:(lia) ltac:(intros; eapply bres_ok; eauto) v vs _ Hinc Hcn Hrun) as (t & [S1 S2 S3 S4] & Hin). simpl in S1, S2, S4.
    exists (v :: t). split; [simpl; congruence|]. split; [done|]. split.
    + intros i s Hi. destruct (S4 i s Hi) as (H1 & _ & H3). split.
      * apply Hcand. apply elem_of_list_lookup_2 in Hi. apply elem_of_cons in Hi as [->|Hi]; [left|right; by apply Hin].
      * eapply (lab_cluster _ _ _ _ _ _ _ _ _ H); eauto.
    + intros x Hx. exists v. split; [done|]. assert (x ∈ v :: vs) as Hxv. { apply Hcand. split; [done|]. destruct Hx as [Hx _]. by apply (primary_lt o n Hv Hs). }
      apply elem_of_cons in Hxv as [->|Hxv]; [done|]. inversion Hinc as [|? ? _ Hvv]; subst. rewrite Forall_forall in Hvv. specialize (Hvv x Hxv). lia.
Qed.

(** The first point that can be a seed. *)
Lemma claim_seed_first cfg P V ds n G D o c w w' c' x : call_ok cfg P V ds n G D o c -> o_seed o = SM_LEXICAL \/ o_seed o = SM_BATCHES ->
  sc_clustering cfg P ds (Some o) (Some c) w = Ok ((ER_OK, Some c'), w') ->
  seedable o n G x -> (forall y, y < x -> ~ seedable o n G y) -> label_of c' x = Some 0%Z.
Proof.
  intros H Hsm E Hx Hmin. destruct (claim_seed_order _ _ _ _ _ _ _ _ _ _ _ _ H Hsm E) as (ss & _ & _ & Hss & Hf). destruct (Hf x Hx) as (s & Hs & Hle).
  destruct (Hss 0 s Hs) as [Hsd Hin]. assert (s = x) as ->. { destruct (decide (s < x)) as [Hlt|]; [by destruct (Hmin s Hlt)|lia]. }
  by apply elem_of_list_filter in Hin as [-> _].
Qed.

Lemma claim_seed_zero cfg P V ds n G D o c w w' c' : call_ok cfg P V ds n G D o c -> o_seed o = SM_LEXICAL \/ o_seed o = SM_BATCHES ->
  o_prim o = None -> o_srad o = RM_NO_RADIUS ->
  sc_clustering cfg P ds (Some o) (Some c) w = Ok ((ER_OK, Some c'), w') -> label_of c' 0 = Some 0%Z.
Proof.
  intros H Hsm Hp Hr0 E. eapply claim_seed_first; eauto; [|intros; lia]. assert (srad_of o = None) as Hsr by (unfold srad_of; by rewrite Hr0).
  destruct (Groups.run_valid _ _ _ _ _ _ _ _ _ _ _ _ H E) as [Hv _]. pose proof (ov_size _ _ Hv) as Hsz. assert (0 ∈ primary o n) as H0 by (apply primary_all; [done|lia]).
  destruct Hsm as [Hsm|Hsm].
  - destruct (run_plain _ _ _ _ _ _ _ _ _ H w w' c' E ltac:(congruence)) as (_ & Hs & _ & L & m & g & ss & _ & _ & Hr). by eapply res_seedable.
  - split; [done|]. destruct (ov_batches _ _ Hv Hsm) as [Ht _]. rewrite decide_True by lia. by eapply bres_no_radius.
Qed.

(** ** Concrete cases *)

Definition ranks : list Z := [50; 0; 22; 51; 1; 20; 53; 90]%Z.
Definition o_ranks (sm : seed_method) : options := with_primary [1; 2; 3; 4; 5; 6; 7] (with_methods sm UM_ANY_NEIGHBOR UM_IGNORE (with_size 2 default_options)).

(** Not with other seed methods. *)
Lemma seed_order_refuted : exists l o k labels, o_seed o = SM_INWARDS_ORDER /\ clustered l o k labels /\
  seedable o (length l) (eucl_geo (line l)) 0 /\ labels !! 0 <> Some 0%Z.
Proof.
  exists ranks, (with_methods SM_INWARDS_ORDER UM_ANY_NEIGHBOR UM_IGNORE (with_size 2 default_options)), 4, [1; 2; 3; 1; 2; 3; 0; 0]%Z. split; [done|].
  split; [apply clustered_by; by vm_compute|]. split; [|done]. apply (bool_decide_eq_true_1 _). by vm_compute.
Qed.
Lemma ranks_seedable sm : seedable (o_ranks sm) 8 (eucl_geo (line ranks)) 1 /\ ~ seedable (o_ranks sm) 8 (eucl_geo (line ranks)) 0.
Proof. split; [apply (bool_decide_eq_true_1 _)|apply (bool_decide_eq_false_1 _)]; destruct sm; by vm_compute. Qed.
