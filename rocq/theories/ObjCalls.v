(** The clustering functions of the library keep to the contract of [ORun]. *)

From stdpp Require Import prelude list gmap.
From Coq Require Import NArith ZArith.
From Verif Require Import Base World Mem Float Spi Options Dist Digraph DigraphRep DigraphOps BatchProof ClusSpec SeedSpec SeedsExcl OptionsProof NngClustering ScSpec ScProof ScClaims ScClaims2 FailClaims
  Hier HierClaims ObjRun ObjProof Tidy.

(** A call on an existing object. *)
Definition sc_call (cfg : config) (P : provider) (ds : p_ds P) (opt : option options) (c : clustering) : M (ecode * clustering) :=
  let* r := sc_clustering cfg P ds opt (Some c) in match r with (ec, Some c') => Mret (ec, c') | (ec, None) => Mbad NullPtr end.
Definition hier_run (cfg : config) (P : provider) (qs : world -> list (nat * double) -> list (nat * double)) (log2cap : nat -> nat -> nat) (ds : p_ds P) (k : nat) (batch : bool)
    (c : clustering) : M (ecode * clustering) :=
  let* r := hierarchical_clustering cfg P qs log2cap ds k batch (Some c) in match r with (ec, Some c') => Mret (ec, c') | (ec, None) => Mbad NullPtr end.

Lemma builtin_tidy : tidy_provider builtin.
Proof. constructor; simpl; intros; [apply tm_imp_matrix|apply tm_imp_rows|apply tm_imp_init|apply tm_imp_max_get|apply tm_imp_close|apply tm_imp_init|apply tm_imp_nn_search|apply tm_imp_close]. Qed.

(** From the accounting of blocks to freshness. *)
Lemma fresh_label (c c' : clustering) w w' : tidy w' -> labels_own c c' w w' -> w_next w <= w_next w' -> (forall b, b ∈ w_live w' -> b ∈ w_live w \/ w_next w <= b) ->
  match c_label c, c_label c' with None, Some a => w_next w <= a_blk a < w_next w' | _, _ => True end.
Proof.
  intros [HN HF] Ho Hn Hl. destruct (c_label c) as [a|] eqn:E; [done|]. destruct (c_label c') as [a'|] eqn:E'; [|done]. unfold labels_own in Ho. rewrite E, E' in Ho. simpl in Ho.
  assert (w_live w' ≡ₚ a_blk a' :: w_live w) as Hp. { apply cnt_perm. intros x. specialize (Ho x). simpl. lia. }
  assert (a_blk a' ∈ w_live w') as Hin by (rewrite Hp; by left). rewrite Forall_forall in HF. split; [|auto]. destruct (Hl _ Hin) as [Hw|?]; [|done]. rewrite Hp in HN. by apply NoDup_cons in HN as [? _].
Qed.

Section Calls.
Context (cfg : config) (P : provider) (V : pview P) (ds : p_ds P) (n : nat) (G : geometry) (D : dist_fun) (HT : tidy_provider P).

Lemma sc_good_ran o c w ec c' w' : call_ok cfg P V ds n G D o c -> is_initialized_clustering cfg (Some c) = true -> tidy w ->
  sc_clustering cfg P ds (Some o) (Some c) w = Ok ((ec, Some c'), w') -> ec = ER_OK \/ ~ is_exclusion (o_seed o) \/ (o_prim o = None /\ o_srad o = RM_NO_RADIUS) ->
  good_call cfg (sc_call cfg P ds (Some o)) c w.
Proof.
  intros Hc Hi Ht E Hd. unfold good_call, sc_call, Msat, Mbind. rewrite E. simpl. destruct (tm_sc_clustering cfg P HT ds (Some o) (Some c) w _ _ E Ht) as (T1 & T2 & T3).
  assert (labels_own c c' w w') as Hown.
  { destruct (claim_no_leak _ _ _ _ _ _ _ _ _ Hc _ _ _ _ E Hd) as (c1 & [= <-] & Hp). intros x. rewrite <- !cnt_app. by apply cnt_perm. }
  assert (clu_kept c c') as Hk.
  { pose proof (run_sat _ _ _ _ _ _ _ _ _ Hc anyub _ w (choice_any _ _ _ _ _ _ _ _ _ Hc)) as Hs. unfold Msat in Hs. rewrite E in Hs. destruct Hs as (c1 & lk & [= <-] & _ & Hk & _); [by right|done]. }
  splits; auto.
  - pose proof (co_clu _ _ _ _ _ _ _ _ _ Hc) as Hok. destruct Hk as [K1 K2 K3]. unfold clu_ok in *. destruct (c_label c') as [a'|]; [|done]. destruct (c_label c) as [a|]; [destruct K3 as (_ & -> & _)|destruct K3 as (-> & _)]; congruence.
  - destruct (claim_still_valid _ _ _ _ _ _ _ _ _ Hc _ _ _ _ E Hi) as (c1 & [= <-] & ? & _). done.
  - by apply fresh_label.
Qed.

Lemma sc_good o c w : call_ok cfg P V ds n G D o c -> is_initialized_clustering cfg (Some c) = true -> tidy w -> no_fail w ->
  ~ is_exclusion (o_seed o) \/ (o_prim o = None /\ o_srad o = RM_NO_RADIUS) -> good_call cfg (sc_call cfg P ds (Some o)) c w.
Proof.
  intros Hc Hi Ht Hn Hd. destruct (claim_safe _ _ _ _ _ _ _ _ _ Hc w Hn) as (ec & c' & w' & E). eapply sc_good_ran; eauto.
Qed.

Lemma hier_good qs log2cap k batch c w : hier_call cfg P V ds n G D qs k c -> tidy w -> good_call cfg (hier_run cfg P qs log2cap ds k batch) c w.
Proof.
  intros Hc Ht. destruct (hier_exact _ _ _ _ _ _ _ _ log2cap _ batch _ Hc w) as (ec & c' & w' & E & Hown & Hk & _).
  unfold good_call, hier_run, Msat, Mbind. rewrite E. simpl. destruct (tm_hierarchical_clustering cfg P HT qs log2cap ds k batch (Some c) w _ _ E Ht) as (T1 & T2 & T3).
  destruct (hier_still_valid _ _ _ _ _ _ _ _ log2cap _ batch _ Hc _ _ _ _ E) as (c1 & [= <-] & Hi & _ & Hok & _). splits; auto. by apply fresh_label.
Qed.
End Calls.
