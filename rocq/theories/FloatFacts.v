(** Facts about binary64 arithmetic: signs, absence of NaN, order. *)

From Coq Require Import ZArith Floats.SpecFloat.
From stdpp Require Import prelude.
From Verif Require Import Float.

(** Not NaN, sign bit clear. *)
Definition d_nonneg (x : double) : Prop :=
  match x with S754_zero s | S754_infinity s | S754_finite s _ _ => s = false | S754_nan => False end.

Definition d_number (x : double) : Prop := x <> S754_nan.

Definition with_sign (s : bool) (x : double) : double :=
  match x with
  | S754_zero _ => S754_zero s
  | S754_infinity _ => S754_infinity s
  | S754_finite _ m e => S754_finite s m e
  | S754_nan => S754_nan
  end.

(** ** Rounding *)

Lemma iter_pos_inv {A} (f : A -> A) (I : A -> Prop) p x : (forall x, I x -> I (f x)) -> I x -> I (SpecFloat.iter_pos f p x).
Proof. intros Hf. revert x. induction p as [p IH|p IH|]; intros x Hx; simpl; auto. Qed.

Lemma shr_fexp_nonneg m e l r e' : (0 <= m)%Z -> shr_fexp dprec demax m e l = (r, e') -> (0 <= shr_m r)%Z.
Proof.
  intros Hm. unfold shr_fexp, shr. assert (0 <= shr_m (shr_record_of_loc m l))%Z as H0 by (by destruct l as [|[]]).
  destruct (fexp dprec demax (Zdigits2 m + e) - e)%Z; intros E; injection E as <- <-; try done.
  apply (iter_pos_inv shr_1 (fun r => (0 <= shr_m r)%Z)); [|done]. intros [[|[q|q|]|q] b c] Hq; simpl in *; lia.
Qed.

Lemma round_nearest_nonneg m l : (0 <= m)%Z -> (0 <= round_nearest_even m l)%Z.
Proof. intros H. destruct l as [|[]]; simpl; try destruct (Z.even m); lia. Qed.

Lemma round_aux_sign s m e l : binary_round_aux dprec demax s m e l = with_sign s (binary_round_aux dprec demax false m e l).
Proof.
  unfold binary_round_aux. destruct (shr_fexp dprec demax m e l) as [r e']. destruct (shr_fexp _ _ _ e' loc_Exact) as [r' e''].
  destruct (shr_m r'); try done. by destruct (e'' <=? demax - dprec)%Z.
Qed.

Lemma round_aux_nonneg m e l : (0 <= m)%Z -> d_nonneg (binary_round_aux dprec demax false m e l).
Proof.
  intros Hm. unfold binary_round_aux. destruct (shr_fexp dprec demax m e l) as [r e'] eqn:E1. destruct (shr_fexp _ _ _ e' loc_Exact) as [r' e''] eqn:E2.
  apply shr_fexp_nonneg in E1; [|done]. apply shr_fexp_nonneg in E2; [|by apply round_nearest_nonneg].
  destruct (shr_m r'); simpl; try done. by destruct (e'' <=? demax - dprec)%Z.
Qed.

Lemma round_sign s m e : binary_round dprec demax s m e = with_sign s (binary_round dprec demax false m e).
Proof. unfold binary_round. destruct (shl_align _ _ _). apply round_aux_sign. Qed.

Lemma round_nonneg m e : d_nonneg (binary_round dprec demax false m e).
Proof. unfold binary_round. destruct (shl_align _ _ _). by apply round_aux_nonneg. Qed.

Lemma nonneg_number x : d_nonneg x -> d_number x.
Proof. by destruct x. Qed.

Lemma with_sign_number s x : d_number x -> d_number (with_sign s x).
Proof. by destruct x. Qed.

(** ** Subtraction *)

Lemma normalize_number m e z : d_number (binary_normalize dprec demax m e z).
Proof. destruct m; simpl; [done|..]; [|rewrite round_sign; apply with_sign_number]; apply nonneg_number, round_nonneg. Qed.

Lemma d_sub_number x y : d_is_finite x = true -> d_is_finite y = true -> d_number (d_sub x y).
Proof.
  destruct x, y; try done; intros _ _; unfold d_sub; simpl; try done; [by destruct (eqb s (negb s0))|]. apply normalize_number.
Qed.

(** Opposite differences are equal up to the sign. *)
Lemma normalize_opp m e s z : with_sign s (binary_normalize dprec demax (- m) e z) = with_sign s (binary_normalize dprec demax m e z).
Proof.
  destruct m as [|q|q]; [done|..]; unfold binary_normalize; simpl; rewrite (round_sign true); by destruct (binary_round dprec demax false q e).
Qed.

Lemma d_sub_swap s x y : with_sign s (d_sub x y) = with_sign s (d_sub y x).
Proof.
  destruct x as [a|a| |a m e], y as [b|b| |b m' e']; unfold d_sub; simpl; try done; try (destruct a, b; done); try (destruct b; done); try (destruct a; done).
  rewrite <- normalize_opp. rewrite (Z.min_comm e' e). do 2 f_equal. lia.
Qed.

Lemma d_sub_self x : d_is_finite x = true -> d_sub x x = d_zero.
Proof. destruct x as [a|a| |a m e]; try done; intros _; unfold d_sub; simpl; [by destruct a|]. by rewrite Z.sub_diag. Qed.

(** ** Squares and sums *)

Lemma d_square_sign s x : d_mul (with_sign s x) (with_sign s x) = d_mul x x.
Proof. destruct x; unfold d_mul; simpl; by rewrite ?xorb_nilpotent. Qed.

Lemma d_square_nonneg x : d_number x -> d_nonneg (d_mul x x).
Proof. destruct x; unfold d_mul; simpl; try done; intros _; rewrite xorb_nilpotent; try done. by apply round_aux_nonneg. Qed.

Lemma d_add_nonneg x y : d_nonneg x -> d_nonneg y -> d_nonneg (d_add x y).
Proof.
  destruct x as [a|a| |a m e], y as [b|b| |b m' e']; unfold d_add; simpl; try done; intros -> ->; simpl; try done. apply round_nonneg.
Qed.

Lemma d_sqrt_nonneg x : d_nonneg x -> d_nonneg (d_sqrt x).
Proof.
  destruct x as [a|a| |a m e]; try done; intros E; cbn in E; subst a; try done. unfold d_sqrt, SFsqrt.
  destruct (SFsqrt_core_binary dprec demax (Z.pos m) e) as [[q e'] l] eqn:E. apply round_aux_nonneg. unfold SFsqrt_core_binary in E.
  match type of E with context [Z.sqrtrem ?mm] => set (m' := mm) in E end. assert (0 <= m')%Z as Hm'.
  { unfold m'. destruct (e - _)%Z; [lia| |lia]. apply Z.shiftl_nonneg. lia. }
  pose proof (Z.sqrtrem_spec m' Hm') as Hs. destruct (Z.sqrtrem m') as [q' r]. injection E as <- _ _.
  destruct (Z.lt_ge_cases q' 0); [|done]. nia.
Qed.

(** ** Order *)

Lemma d_le_refl x : d_nonneg x -> d_le x x = true.
Proof. destruct x; simpl; try done; intros ->; unfold d_le, SFleb; simpl; try done. by rewrite Z.compare_refl, Pos.compare_cont_refl. Qed.

(** Position of a non-negative number in the order. *)
Definition rank (x : double) : nat * (Z * Z) :=
  match x with
  | S754_zero _ => (0, (0, 0)%Z)
  | S754_finite _ m e => (1, (e, Zpos m))
  | _ => (2, (0, 0)%Z)
  end.
Definition rank_le (a b : nat * (Z * Z)) : Prop :=
  a.1 < b.1 \/ (a.1 = b.1 /\ (a.2.1 < b.2.1 \/ (a.2.1 = b.2.1 /\ a.2.2 <= b.2.2))%Z).

Lemma d_le_rank x y : d_nonneg x -> d_nonneg y -> d_le x y = true <-> rank_le (rank x) (rank y).
Proof.
  destruct x as [a|a| |a m e], y as [b|b| |b m' e']; simpl; try done; intros -> ->; unfold d_le, SFleb, rank_le; simpl; try (split; [intros; lia|done]); try (split; [done|lia]).
  change (Pos.compare_cont Eq m m') with (m ?= m')%positive.
  destruct (Z.compare_spec e e'); [|split; [intros; lia|done]|split; [done|lia]].
  destruct (Pos.compare_spec m m'); split; try done; lia.
Qed.

Lemma d_le_total x y : d_nonneg x -> d_nonneg y -> d_le x y = true \/ d_le y x = true.
Proof. intros Hx Hy. rewrite !d_le_rank by done. unfold rank_le. destruct (rank x) as [a [b c]], (rank y) as [a' [b' c']]; simpl. lia. Qed.

Lemma d_le_trans x y z : d_nonneg x -> d_nonneg y -> d_nonneg z -> d_le x y = true -> d_le y z = true -> d_le x z = true.
Proof. intros Hx Hy Hz. rewrite !d_le_rank by done. unfold rank_le. destruct (rank x) as [a [b c]], (rank y) as [a' [b' c']], (rank z) as [a'' [b'' c'']]; simpl. lia. Qed.

Lemma compare_swap x y : SFcompare y x = match SFcompare x y with Some c => Some (CompOpp c) | None => None end.
Proof.
  destruct x as [a|a| |a m e], y as [b|b| |b m' e']; simpl; try done; try (by destruct a); try (by destruct b); try (by destruct a, b).
  change (Pos.compare_cont Eq m m') with (m ?= m')%positive. change (Pos.compare_cont Eq m' m) with (m' ?= m)%positive.
  rewrite (Z.compare_antisym e e'), (Pos.compare_antisym m m'). destruct a, b; simpl; try done; destruct (e ?= e')%Z; simpl; try done; destruct (m ?= m')%positive; done.
Qed.

Lemma compare_some x y : d_number x -> d_number y -> exists c, SFcompare x y = Some c.
Proof. destruct x, y; simpl; try done; eauto. Qed.

Lemma d_lt_le x y : d_number x -> d_number y -> d_lt x y = negb (d_le y x).
Proof.
  intros Hx Hy. unfold d_lt, d_le, SFltb, SFleb. rewrite (compare_swap x y). destruct (compare_some x y Hx Hy) as [c ->]. by destruct c.
Qed.

(** Transitivity with a bound that need not be non-negative. *)
Lemma d_gt_mono x y r : d_nonneg x -> d_nonneg y -> d_le x y = true -> d_gt x r = true -> d_gt y r = true.
Proof.
  intros Hx Hy Hle Hg. unfold d_gt, d_lt in *. destruct r as [b|b| |b m e]; try (by destruct x, y).
  - destruct x as [a|a| |a m e], y as [a'|a'| |a' m' e']; simpl in *; subst; try done.
  - destruct x as [a|a| |a m e], y as [a'|a'| |a' m' e']; simpl in *; subst; try done; by destruct b.
  - destruct b; [by destruct x as [a|a| |a m1 e1], y as [a'|a'| |a' m' e']; simpl in *; subst|].
    assert (d_nonneg (S754_finite false m e)) as Hr by done. change (d_lt (S754_finite false m e) y = true). change (d_lt (S754_finite false m e) x = true) in Hg.
    rewrite d_lt_le in * by (by apply nonneg_number). apply negb_true_iff. apply negb_true_iff in Hg. destruct (d_le y (S754_finite false m e)) eqn:E; [|done].
    rewrite (d_le_trans x y _ Hx Hy Hr Hle E) in Hg. done.
Qed.
