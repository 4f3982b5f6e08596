(** The assignment stages keep labels. *)

From stdpp Require Import prelude list sorting.
From Coq Require Import NArith ZArith.
From Verif Require Import Base World Mem Digraph DigraphRep Float Spi Options Arrays GraphSpec SeedSpec AssignSpec
  Nng NngGraph NngSize NngAssign NngStage ClusSpec.

(** [cl'] has the labels of [cl], except that points with SCC_CLABEL_NA may have
    got a label that another point has in [cl]. *)
Definition only_adds (cfg : config) (n : nat) (cl cl' : clustering) : Prop :=
  c_n cl' = c_n cl /\ c_k cl' = c_k cl /\
  forall x, x < n -> label_of cl' x = label_of cl x \/
    (label_of cl x = Some (cl_na cfg) /\ exists y, y < n /\ label_of cl y <> Some (cl_na cfg) /\ label_of cl' x = label_of cl y).

(** [cl] has a complete label array with the labels of [k] clusters. *)
Definition labels_ok (cfg : config) (n k : nat) (cl : clustering) : Prop :=
  c_n cl = n /\ (N.of_nat k <= cl_max cfg)%N /\ length (cells cl) = n /\
  forall x, x < n -> label_of cl x = Some (cl_na cfg) \/ exists i, i < k /\ label_of cl x = Some (Z.of_nat i).

Section Keep.
Context (cfg : config) (Hcfg : config_ok cfg).

Definition extends (L L' : labels) : Prop :=
  length L' = length L /\ forall x, x < length L ->
    lab L' x = lab L x \/ (lab L x = None /\ exists y, y < length L /\ lab L y <> None /\ lab L' x = lab L y).

Lemma labels_ok_list n k cl : labels_ok cfg n k cl -> n <> 0 -> exists b L, c_label cl = farr b (enc cfg <$> L) /\ length L = n /\ labels_lt k L.
Proof.
  intros (Hn & Hk & Hl & Hall) Hn0. unfold label_of, cells in *. destruct (c_label cl) as [[b cs]|]; simpl in *; [|lia].
  set (dec := fun o : option Z => match o with Some z => if decide (z = cl_na cfg) then None else Some (Z.to_nat z) | None => None end).
  assert (forall x, x < n -> exists z, cs !! x = Some (Some z) /\ enc cfg (dec (Some z)) = z /\ forall i, dec (Some z) = Some i -> i < k) as Hd.
  { intros x Hx. destruct (lookup_lt_is_Some_2 cs x) as [o Ho]; [by rewrite Hl|]. specialize (Hall x Hx). rewrite Ho in Hall. simpl in Hall.
    destruct Hall as [->|(i & Hi & ->)]; eexists; (split; [exact Ho|]); unfold dec.
    - rewrite decide_True by done. split; [done|]. done.
    - assert (Z.of_nat i <> cl_na cfg) as Hne.
      { intros E. pose proof (enc_na cfg Hcfg k (Some i) Hk) as [H _]; [by intros ? [= ->]|]. by specialize (H E). }
      rewrite decide_False by done. rewrite Nat2Z.id. split; [done|]. by intros ? [= <-]. }
  exists b, (dec <$> cs). split; [|split].
  - f_equal. f_equal. apply list_eq. intros x. rewrite !list_lookup_fmap. destruct (decide (x < n)) as [Hx|Hx].
    + destruct (Hd x Hx) as (z & -> & E & _). cbn [fmap option_fmap option_map]. by rewrite E.
    + rewrite lookup_ge_None_2 by lia. done.
  - by rewrite fmap_length.
  - intros x i H. unfold lab in H. rewrite list_lookup_fmap in H. destruct (decide (x < n)) as [Hx|Hx].
    + destruct (Hd x Hx) as (z & Ez & _ & Hi). rewrite Ez in H. by apply Hi.
    + rewrite lookup_ge_None_2 in H by lia. done.
Qed.

Lemma label_of_farr cl b L x : c_label cl = farr b (enc cfg <$> L) -> x < length L -> label_of cl x = Some (enc cfg (lab L x)).
Proof. intros E Hx. unfold label_of, cells. rewrite E. simpl. rewrite !list_lookup_fmap, (lab_lookup _ _ Hx). done. Qed.

Lemma only_adds_of n k cl cl' b L L' : c_n cl' = c_n cl -> c_k cl' = c_k cl -> (N.of_nat k <= cl_max cfg)%N -> labels_lt k L -> length L = n ->
  c_label cl = farr b (enc cfg <$> L) -> c_label cl' = farr b (enc cfg <$> L') -> extends L L' -> only_adds cfg n cl cl'.
Proof.
  intros Hn Hk Hm Hlt Hl E E' [Hlen Hx]. split; [done|]. split; [done|]. intros x Hxn.
  rewrite (label_of_farr cl' b L') by (auto; lia). rewrite (label_of_farr cl b L) by (auto; lia).
  destruct (Hx x) as [->|(H0 & y & Hy & Hne & ->)]; [lia|by left|right]. rewrite H0. split; [done|]. exists y. split; [lia|].
  rewrite (label_of_farr cl b L) by (auto; lia). split; [|done]. intros [= H]. apply Hne. apply (enc_na cfg Hcfg k); [done|apply Hlt|done].
Qed.

Lemma by_neighbors_extends g L : extends L (by_neighbors g L).
Proof.
  split; [apply by_neighbors_length|]. intros x Hx. rewrite by_neighbors_lab by done. destruct (lab L x) as [i|] eqn:E; [by left|].
  destruct (neighbor_label g L x) as [i|] eqn:En; [right|by left]. split; [done|]. apply neighbor_label_Some in En as (y & Hy & Ey). exists y.
  split; [by eapply lab_lt|]. split; congruence.
Qed.

Lemma by_search_extends G S T rad n L L' : length L = n -> (forall x, x ∈ S -> x < n /\ assigned L x) -> by_search G S T rad L L' -> extends L L'.
Proof.
  intros Hl HS [Hlen H]. split; [done|]. intros x Hx. specialize (H x Hx). destruct (decide _) as [(_ & Ha & _)|_]; [|by left].
  destruct H as (y & Hnr & _ & ->). right. split; [by apply dec_stable|]. exists y.
  destruct (HS y) as [? ?]; [|split; [lia|done]]. apply (elem_of_submseteq [y]); [left|]. apply (nst_sub _ _ _ _ _ Hnr).
Qed.

Lemma keep_nng cl k dg g n w cl' num w' : 0 < n -> dg_rep cfg dg g -> length g = n -> labels_ok cfg n k cl ->
  assign_by_nng cfg cl dg w = Ok ((cl', num), w') -> only_adds cfg n cl cl'.
Proof.
  intros Hn0 Hg Hlg Hok E. destruct (labels_ok_list n k cl Hok) as (b & L & HL & Hl & Hlt); [lia|]. destruct Hok as (Hn & Hk & _ & _).
  pose proof (Msat_assign_by_nng cfg Hcfg anyub cl b L k dg g n w Hg Hlg Hn Hl HL Hlt Hk) as Hs. unfold Msat in Hs. rewrite E in Hs.
  destruct Hs as (_ & _ & [(-> & _ & _)|(-> & _)]).
  - eapply (only_adds_of n k cl _ b L); eauto. apply by_neighbors_extends. 
  - split; [done|]. split; [done|]. auto.
Qed.

Lemma keep_search P V ds n G D cl k o U tb tc rad w ec cl' ta w' : provider_ok P V ds n G D -> 0 < n ->
  nn_good V o -> (forall x, cnt x (nn_blk V o) <= cnt x (w_live w)) -> nn_set V o <> [] -> labels_ok cfg n k cl ->
  NoDup U -> U <> [] -> (forall x, x ∈ U -> x < n /\ label_of cl x = Some (cl_na cfg)) ->
  (forall x, x ∈ nn_set V o -> x < n /\ label_of cl x <> Some (cl_na cfg)) -> filled tc U ->
  assign_by_nn_search P cl o (length U) (Some (Arr tb tc)) rad w = Ok ((ec, cl', ta), w') -> only_adds cfg n cl cl'.
Proof.
  intros HP Hn0 Hgo Hb HS Hok HU HU0 HUl HSl Hf E. destruct (labels_ok_list n k cl Hok) as (b & L & HL & Hl & Hlt); [lia|]. destruct Hok as (Hn & Hk & _ & _).
  assert (forall x, x < n -> label_of cl x = Some (cl_na cfg) <-> ~ assigned L x) as Hlab.
  { intros x Hx. rewrite (label_of_farr cl b L) by (auto; lia). unfold assigned. rewrite <- (enc_na cfg Hcfg k (lab L x) Hk); [|by apply Hlt].
    split; [by intros [= ->]; auto|]. intros H. f_equal. by apply dec_stable. }
  pose proof (Msat_assign_by_nn_search cfg Hcfg P V ds n G D HP anyub cl b L k o (nn_set V o) U tb tc rad w) as Hs. unfold Msat in Hs. rewrite E in Hs.
  destruct Hs as (_ & _ & _ & [(_ & _ & L' & -> & Hbs)|(_ & -> & _)]); auto.
  - intros x Hx. destruct (HUl x Hx) as [? ?]. split; [done|]. by apply Hlab.
  - intros x Hx. destruct (HSl x Hx) as [H1 H2]. split; [done|]. rewrite Hlab in H2 by done. by apply dec_stable.
  - by right.
  - eapply (only_adds_of n k cl _ b L); eauto. eapply (by_search_extends G (nn_set V o)); eauto.
    intros x Hx. destruct (HSl x Hx) as [H1 H2]. split; [done|]. rewrite Hlab in H2 by done. by apply dec_stable.
  - split; [done|]. split; [done|]. auto.
Qed.
End Keep.
