(** A provider that fails, and a data set large enough for products to wrap. *)

From stdpp Require Import prelude list sorting.
From Coq Require Import NArith ZArith.
From Verif Require Import Base World Mem Digraph DigraphRep Float Spi Dist Options Arrays GraphSpec SeedSpec AssignSpec SeedsExcl
  Nng NngGraph NngSize NngAssign NngStage TypeCount TypeRows Batch BatchProof OptionsProof NngClustering
  ScSpec ScProof ClusSpec ScFacts Approx ScClaims DistProof Example1 BatchOverflow.

(** The built-in functions, except that searches for a single neighbour fail. *)
Definition flaky : provider := {|
  p_ds := p_ds builtin; p_nn := p_nn builtin; p_mx := p_mx builtin; p_check := p_check builtin; p_num := p_num builtin;
  p_matrix := p_matrix builtin; p_rows := p_rows builtin; p_mx_init := p_mx_init builtin; p_mx_get := p_mx_get builtin;
  p_mx_close := p_mx_close builtin; p_nn_init := p_nn_init builtin;
  p_nn_search := fun o q k rad => if decide (k = 1) then Mret None else p_nn_search builtin o q k rad;
  p_nn_close := p_nn_close builtin |}.
Definition flaky_view (d : dataset) (n : nat) : pview flaky :=
  PView flaky (nn_set (builtin_view d n)) (nn_blk (builtin_view d n)) (nn_good (builtin_view d n))
    (mx_set (builtin_view d n)) (mx_blk (builtin_view d n)) (mx_good (builtin_view d n)).

Lemma flaky_ok d n : data_ok d n -> provider_ok flaky (flaky_view d n) (Some d) n (eucl_geo d) (eucl d).
Proof.
  intros Hd. destruct (builtin_ok d n Hd) as [H1 H2 H3 H4 H5 H6 H7 H8 H9 H10]. constructor; [exact H1|exact H2|exact H3| |exact H5|exact H6|exact H7|exact H8|exact H9|exact H10].
  intros w o q k rad Hg Hq Hk Hs Hb. simpl. destruct (decide (k = 1)).
  - apply Msat_ret. split; [|done]. split; [wl|]. split; [blk|done].
  - by apply H4.
Qed.

Lemma flaky_call l o c : l <> [] -> finite_b l = true -> sane_b o (length l) = true -> clu_ok c ->
  call_ok default_config flaky (flaky_view (line l) (length l)) (Some (line l)) (length l) (eucl_geo (line l)) (eucl (line l)) o c.
Proof.
  intros H1 H2 H3 Hc. destruct (line_call default_config l o c) as [A1 A2 A3 A4 A5 A6]; auto; [by apply default_config_ok|].
  constructor; auto. by apply flaky_ok, line_data.
Qed.

(** 65537 points at zero. *)
Definition big : nat := N.to_nat 65537.
Lemma big_val : N.of_nat big = 65537%N.
Proof. apply N2Nat.id. Qed.
Global Opaque big.
Definition big_line : dataset := line (replicate big 0%Z).
Definition big_options : options := with_methods SM_BATCHES UM_ANY_NEIGHBOR UM_IGNORE (with_size big default_options).

Lemma big_data : data_ok big_line big.
Proof.
  assert (length (replicate big 0%Z) = big) as Hl by apply replicate_length. unfold big_line. rewrite <- Hl at 2. apply line_data.
  - intros E. rewrite E in Hl. simpl in Hl. pose proof big_val. lia.
  - unfold finite_b. apply forallb_forall. intros x Hx%elem_of_list_In%elem_of_replicate_inv. by subst.
Qed.

Lemma big_valid : options_valid big_options big.
Proof.
  constructor; simpl; try done; auto; try lia. pose proof big_val. lia.
Qed.

Lemma big_overflow : sc_clustering default_config builtin (Some big_line) (Some big_options) (Some (new_clustering big)) world0 = Bad Oob.
Proof.
  apply (sc_overflow default_config default_config_ok builtin (builtin_view big_line big) (Some big_line) big (eucl_geo big_line) (eucl big_line)).
  - apply builtin_ok, big_data.
  - split; [done|]. apply builtin_reliable, big_data.
  - unfold is_initialized_clustering. cbn [c_version c_n c_k c_label new_clustering pi_max cl_max default_config].
    rewrite (decide_False (P := _ <> _)) by congruence. rewrite (decide_False (P := big = 0)) by (pose proof big_val; lia).
    replace (_ <? N.of_nat big)%N with false by (symmetry; apply N.ltb_ge; rewrite big_val; done). done.
  - exact I.
  - exact eq_refl.
  - exact eq_refl.
  - apply big_valid.
  - exact eq_refl.
  - right. exact eq_refl.
  - exact eq_refl.
  - exact eq_refl.
  - rewrite big_val. done.
  - change (o_size big_options) with big. unfold wrapN. rewrite Nat2N.inj_mul, big_val.
    replace (65537 * 65537 mod (u32max + 1))%N with 131073%N by reflexivity. pose proof big_val. nia.
Qed.
