(** Option validation (iscc_check_cluster_options in src/utilities.c). *)

From stdpp Require Import prelude list sorting.
From Coq Require Import NArith ZArith.
From Verif Require Import Base World Mem Digraph DigraphRep Float Spi Options Arrays NngStage.

(** The requirements on options for clustering [n] points. *)
Record options_valid (o : options) (n : nat) : Prop := {
  ov_version : o_version o = options_version;
  ov_size : 2 <= o_size o <= n;
  ov_untyped : o_num_types o < 2 -> o_tcons o = None /\ o_len_tlabels o = 0 /\ o_tlabels o = None;
  ov_typed : 2 <= o_num_types o -> (N.of_nat (o_num_types o) <= 65535)%N /\ is_Some (o_tcons o) /\ n <= o_len_tlabels o /\ is_Some (o_tlabels o);
  ov_seed : o_seed o <> SM_OTHER;
  ov_prim : match o_prim o with None => o_len_prim o = 0 | Some p => o_len_prim o <> 0 /\ StronglySorted lt (take (o_len_prim o) p) end;
  ov_pum : o_pum o <> UM_OTHER;
  ov_sum : o_sum o <> UM_OTHER /\ o_sum o <> UM_ANY_NEIGHBOR;
  ov_srad : o_srad o = RM_NO_RADIUS \/ (o_srad o = RM_USE_SUPPLIED /\ d_le (o_srad_val o) d_zero = false);
  ov_prad : o_prad o <> RM_OTHER /\ (o_prad o = RM_USE_SUPPLIED -> d_le (o_prad_val o) d_zero = false);
  ov_2rad : o_2rad o <> RM_OTHER /\ (o_2rad o = RM_USE_SUPPLIED -> d_le (o_2rad_val o) d_zero = false);
  ov_batches : o_seed o = SM_BATCHES -> o_num_types o < 2 /\ o_sum o = UM_IGNORE /\ o_prad o = RM_USE_SEED_RADIUS
}.

(** What the error codes say. *)
Definition options_error (o : options) (n : nat) (ec : ecode) : Prop :=
  (ec = ER_INVALID_INPUT) \/
  (ec = ER_NO_SOLUTION /\ n < o_size o) \/
  (ec = ER_TOO_LARGE_PROBLEM /\ (65535 < N.of_nat (o_num_types o))%N) \/
  (ec = ER_NOT_IMPLEMENTED /\ o_seed o = SM_BATCHES).

Lemma sorted_snoc l x : StronglySorted lt (l ++ [x]) <-> StronglySorted lt l /\ (forall y, last l = Some y -> y < x).
Proof.
  induction l as [|a l IH]; simpl.
  - split; [intros _; split; [constructor|done]|]. intros _. repeat constructor.
  - split.
    + intros H. apply StronglySorted_inv in H as [Hs Hf]. apply IH in Hs as [Hs Hl]. rewrite Forall_app in Hf. destruct Hf as [Hf Hx]. split; [by constructor|].
      intros y. destruct l as [|b l]; [|by apply Hl]. intros [= <-]. by inversion Hx.
    + intros [Hs Hl]. apply StronglySorted_inv in Hs as [Hs Hf]. constructor.
      * apply IH. split; [done|]. destruct l as [|b l]; [done|]. exact Hl.
      * rewrite Forall_app. split; [done|]. constructor; [|constructor]. destruct l as [|b l]; [by apply Hl|].
        destruct (last (b :: l)) as [z|] eqn:E; [|by apply last_None in E]. specialize (Hl z E).
        apply last_Some in E as [l' E]. rewrite E in Hf. apply Forall_app in Hf as [_ Hf]. inversion Hf; subst. lia.
Qed.

Lemma prim_unsorted_sat B len p : len <= length p -> len <> 0 ->
  Rsat B (prim_unsorted len p) (fun b => b = false <-> StronglySorted lt (take len p)).
Proof.
  intros Hl H0. unfold prim_unsorted. apply Rsat_bind.
  eapply Rsat_mono; [apply (loopR_sat B (fun i _ => StronglySorted lt (take i p)) (fun b => b = true /\ ~ StronglySorted lt (take len p)))|].
  - destruct p as [|x p]; simpl; [constructor|]. destruct p; repeat constructor.
  - intros j [] Hj HI. destruct (lookup_lt_is_Some_2 p (j - 1)) as [a Ha]; [lia|]. destruct (lookup_lt_is_Some_2 p j) as [b Hb]; [lia|].
    rewrite (lget_ok _ _ a) by done. cbn [Rbind]. rewrite (lget_ok _ _ b) by done. cbn [Rbind].
    assert (last (take j p) = Some a) as Hlast.
    { rewrite last_lookup, take_length, lookup_take by lia. replace (pred (j `min` length p)) with (j - 1) by lia. done. }
    destruct (decide (b <= a)) as [Hba|Hba]; cbn [Rsat].
    + split; [done|]. intros Hs. assert (StronglySorted lt (take (S j) p)) as Hs'.
      { rewrite <- (take_drop (S j) (take len p)) in Hs. apply StronglySorted_app_inv_l in Hs. rewrite take_take in Hs.
        by replace (S j `min` len) with (S j) in Hs by lia. }
      rewrite (take_S_r _ _ b) in Hs' by done. apply sorted_snoc in Hs' as [_ Hs']. specialize (Hs' a Hlast). lia.
    + rewrite (take_S_r _ _ b) by done. apply sorted_snoc. split; [done|]. intros y Hy. rewrite Hlast in Hy. injection Hy as <-. lia.
  - intros [[]|b]; cbn [Rsat].
    + replace (1 + (len - 1)) with len by lia. done.
    + intros [-> H]. done.
Qed.

(** The option arrays are as long as the options say. *)
Definition prim_readable (o : options) : Prop := forall p, o_prim o = Some p -> o_len_prim o <= length p.

Definition check_post (o : options) (n : nat) (w : world) (ec : ecode) (w' : world) : Prop :=
  wle w w' /\ own w' [] w /\
  ((ec = ER_OK /\ w_err w' = w_err w /\ options_valid o n) \/
   (ec <> ER_OK /\ e_code (w_err w') = ec /\ ~ options_valid o n /\ options_error o n ec)).

Lemma check_post_err B o n w ec msg f l : ec <> ER_OK -> ~ options_valid o n -> options_error o n ec ->
  Msat B (make_error_msg ec msg f l) w (check_post o n w).
Proof.
  intros H1 H2 H3. apply Msat_make_error__. intros w1 L1 O1 E1 _. unfold check_post. splits; auto. right. splits; auto. by rewrite E1.
Qed.

Lemma Msat_check_options B o n w : prim_readable o -> Msat B (check_cluster_options (Some o) n) w (check_post o n w).
Proof.
  intros Hp. unfold check_cluster_options.
  destruct (decide (o_version o <> options_version)) as [H1|H1].
  { apply check_post_err; [done|intros []; congruence|by left]. }
  destruct (decide (o_size o < 2)) as [H2|H2].
  { apply check_post_err; [done|intros []; lia|by left]. }
  destruct (decide (n < o_size o)) as [H3|H3].
  { apply check_post_err; [done|intros []; lia|right; by left]. }
  apply Msat_bind.
  eapply Msat_mono with (P := fun r w' => match r with Some e => check_post o n w e w' | None => w' = w /\
     (o_num_types o < 2 -> o_tcons o = None /\ o_len_tlabels o = 0 /\ o_tlabels o = None) /\
     (2 <= o_num_types o -> (N.of_nat (o_num_types o) <= 65535)%N /\ is_Some (o_tcons o) /\ n <= o_len_tlabels o /\ is_Some (o_tlabels o)) end).
  { assert (forall ec msg f l, ec <> ER_OK -> ~ options_valid o n -> options_error o n ec ->
      Msat B (let* e := make_error_msg ec msg f l in Mret (Some e)) w (fun r w' => match r with Some e => check_post o n w e w' | None => w' = w /\
     (o_num_types o < 2 -> o_tcons o = None /\ o_len_tlabels o = 0 /\ o_tlabels o = None) /\
     (2 <= o_num_types o -> (N.of_nat (o_num_types o) <= 65535)%N /\ is_Some (o_tcons o) /\ n <= o_len_tlabels o /\ is_Some (o_tlabels o)) end)) as Herr.
    { intros. apply Msat_bind. eapply Msat_mono; [by apply (check_post_err B o n w)|]. intros e w1 He. by apply Msat_ret. }
    destruct (decide (o_num_types o < 2)) as [Ht|Ht].
    - destruct (decide (is_Some (o_tcons o))) as [H4|H4].
      { apply Herr; [done| |by left]. intros []. destruct (ov_untyped0 Ht) as (E & _). rewrite E in H4. by destruct H4. }
      destruct (decide (o_len_tlabels o <> 0)) as [H5|H5].
      { apply Herr; [done| |by left]. intros []. tauto. }
      destruct (decide (is_Some (o_tlabels o))) as [H6|H6].
      { apply Herr; [done| |by left]. intros []. destruct (ov_untyped0 Ht) as (_ & _ & E). rewrite E in H6. by destruct H6. }
      apply Msat_ret. split; [done|]. split; [|lia]. intros _. rewrite <- !eq_None_not_Some in *. splits; auto. lia.
    - destruct (N.ltb_spec 65535 (N.of_nat (o_num_types o))) as [H4|H4].
      { apply Herr; [done| |]; [intros []; destruct ov_typed0; lia|]. right. right. by left. }
      destruct (decide (o_tcons o = None)) as [H5|H5].
      { apply Herr; [done| |by left]. intros []. destruct ov_typed0 as (_ & [? E] & _); [lia|]. congruence. }
      destruct (decide (o_len_tlabels o < n)) as [H6|H6].
      { apply Herr; [done| |by left]. intros []. destruct ov_typed0; lia. }
      destruct (decide (o_tlabels o = None)) as [H7|H7].
      { apply Herr; [done| |by left]. intros []. destruct ov_typed0 as (_ & _ & _ & [? E]); [lia|]. congruence. }
      apply Msat_ret. split; [done|]. split; [lia|]. intros _. rewrite <- !not_eq_None_Some. splits; auto; lia. }
  intros [e|] w1; [intros; by apply Msat_ret|]. intros (-> & T1 & T2).
  destruct (decide (o_seed o = SM_OTHER)) as [H4|H4].
  { apply check_post_err; [done|intros []; congruence|by left]. }
  destruct (decide (is_Some (o_prim o) /\ o_len_prim o = 0)) as [[[p Ep] H5]|H5].
  { apply check_post_err; [done| |by left]. intros []. rewrite Ep in ov_prim0. lia. }
  apply Msat_bind, Msat_lift.
  eapply Rsat_mono with (P := fun b => b = false <-> forall p, o_prim o = Some p -> StronglySorted lt (take (o_len_prim o) p)).
  { destruct (o_prim o) as [p|] eqn:Ep.
    - eapply Rsat_mono; [apply prim_unsorted_sat; [by apply Hp|intros ?; apply H5; eauto]|]. intros b Hb. rewrite Hb. naive_solver.
    - done. }
  intros u Hu. destruct u.
  { apply check_post_err; [done| |by left]. intros []. assert (true = false) as E; [|done]. apply Hu. intros p Ep. rewrite Ep in ov_prim0. tauto. }
  destruct Hu as [Hu _]. specialize (Hu eq_refl).
  destruct (decide (o_prim o = None /\ 0 < o_len_prim o)) as [H6|H6].
  { apply check_post_err; [done| |by left]. intros []. destruct H6 as [E ?]. rewrite E in ov_prim0. lia. }
  destruct (decide (o_pum o = UM_OTHER)) as [H7|H7].
  { apply check_post_err; [done|intros []; congruence|by left]. }
  destruct (decide (o_sum o = UM_ANY_NEIGHBOR)) as [H8|H8].
  { apply check_post_err; [done|intros []; tauto|by left]. }
  destruct (decide (o_sum o = UM_OTHER)) as [H9|H9].
  { apply check_post_err; [done|intros []; tauto|by left]. }
  destruct (decide (o_srad o <> RM_NO_RADIUS /\ o_srad o <> RM_USE_SUPPLIED)) as [H10|H10].
  { apply check_post_err; [done|intros []; tauto|by left]. }
  destruct (decide (o_srad o = RM_USE_SUPPLIED /\ d_le (o_srad_val o) d_zero = true)) as [[H11 H11']|H11].
  { apply check_post_err; [done| |by left]. intros []. destruct ov_srad0 as [?|[? ?]]; congruence. }
  destruct (decide (o_prad o = RM_OTHER)) as [H12|H12].
  { apply check_post_err; [done|intros []; tauto|by left]. }
  destruct (decide (o_prad o = RM_USE_SUPPLIED /\ d_le (o_prad_val o) d_zero = true)) as [[H13 H13']|H13].
  { apply check_post_err; [done| |by left]. intros []. destruct ov_prad0 as [? E]. specialize (E H13). congruence. }
  destruct (decide (o_2rad o = RM_OTHER)) as [H14|H14].
  { apply check_post_err; [done|intros []; tauto|by left]. }
  destruct (decide (o_2rad o = RM_USE_SUPPLIED /\ d_le (o_2rad_val o) d_zero = true)) as [[H15 H15']|H15].
  { apply check_post_err; [done| |by left]. intros []. destruct ov_2rad0 as [? E]. specialize (E H15). congruence. }
  assert ((o_seed o = SM_BATCHES -> o_num_types o < 2 /\ o_sum o = UM_IGNORE /\ o_prad o = RM_USE_SEED_RADIUS) -> options_valid o n) as Hok.
  { intros Hb. constructor; auto.
    - destruct (decide (o_version o = options_version)); tauto.
    - lia.
    - destruct (o_prim o) as [p|] eqn:Ep; [split; [intros ?; apply H5; eauto|auto]|]. destruct (decide (o_len_prim o = 0)); [done|]. exfalso. apply H6. split; [done|lia].
    - destruct (decide (o_srad o = RM_NO_RADIUS)); [by left|]. right. destruct (decide (o_srad o = RM_USE_SUPPLIED)); [|tauto]. split; [done|].
      destruct (d_le (o_srad_val o) d_zero); tauto.
    - split; [done|]. intros E. destruct (d_le (o_prad_val o) d_zero); tauto.
    - split; [done|]. intros E. destruct (d_le (o_2rad_val o) d_zero); tauto. }
  assert (options_valid o n -> Msat B (Mret ER_OK) w (check_post o n w)) as Hret.
  { intros Hv. apply Msat_ret. unfold check_post. split; [wl|]. split; [blk|]. by left. }
  destruct (decide (o_seed o = SM_BATCHES)) as [Hb|Hb]; [|apply Hret, Hok; tauto].
  destruct (decide (2 <= o_num_types o)) as [H16|H16].
  { apply check_post_err; [done| |do 3 right; auto]. intros []. destruct (ov_batches0 Hb). lia. }
  destruct (decide (o_sum o <> UM_IGNORE)) as [H17|H17].
  { apply check_post_err; [done| |do 3 right; auto]. intros []. destruct (ov_batches0 Hb). tauto. }
  destruct (decide (o_prad o <> RM_USE_SEED_RADIUS)) as [H18|H18].
  { apply check_post_err; [done| |do 3 right; auto]. intros []. destruct (ov_batches0 Hb). tauto. }
  apply Hret, Hok. intros _. splits.
  - lia.
  - destruct (decide (o_sum o = UM_IGNORE)); tauto.
  - destruct (decide (o_prad o = RM_USE_SEED_RADIUS)); tauto.
Qed.
