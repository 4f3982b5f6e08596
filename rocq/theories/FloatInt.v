(** Arithmetic on integers held in binary64 numbers is exact below 2^53. *)

From Coq Require Import ZArith Floats.SpecFloat.
From stdpp Require Import prelude.
From Verif Require Import Float FloatFacts.

Local Open Scope Z_scope.

(** ** Digits and shifts *)

Lemma digits_log2 p : Zpos (digits2_pos p) = Z.log2 (Zpos p) + 1.
Proof.
  induction p as [p IH|p IH|]; [| |done]; cbn [digits2_pos]; rewrite Pos2Z.inj_succ, IH.
  - change (Zpos p~1) with (2 * Zpos p + 1). rewrite Z.log2_succ_double by lia. lia.
  - change (Zpos p~0) with (2 * Zpos p). rewrite Z.log2_double by lia. lia.
Qed.

Lemma shr_iter n m : (0 < m) -> SpecFloat.iter_pos shr_1 n (Build_shr_record (m * 2 ^ Zpos n) false false) = Build_shr_record m false false.
Proof.
  assert (forall q, 0 < q -> shr_1 (Build_shr_record (2 * q) false false) = Build_shr_record q false false) as H1 by (by intros [|q|q]).
  revert m. induction n as [n IH|n IH|]; intros m Hm; cbn [SpecFloat.iter_pos].
  - assert (0 < 2 ^ Zpos n) by (apply Z.pow_pos_nonneg; lia).
    replace (m * 2 ^ Zpos n~1) with (2 * (m * 2 ^ Zpos n * 2 ^ Zpos n)).
    + rewrite H1 by nia. rewrite IH by nia. by apply IH.
    + change (Zpos n~1) with (2 * Zpos n + 1). rewrite Z.pow_add_r, Z.pow_1_r by lia. replace (2 * Zpos n) with (Zpos n + Zpos n) by lia. rewrite Z.pow_add_r by lia. ring.
  - assert (0 < 2 ^ Zpos n) by (apply Z.pow_pos_nonneg; lia).
    replace (m * 2 ^ Zpos n~0) with (m * 2 ^ Zpos n * 2 ^ Zpos n).
    + rewrite IH by nia. by apply IH.
    + change (Zpos n~0) with (2 * Zpos n). replace (2 * Zpos n) with (Zpos n + Zpos n) by lia. rewrite Z.pow_add_r by lia. ring.
  - replace (m * 2 ^ 1) with (2 * m) by lia. by apply H1.
Qed.

Lemma shl_value m e e' : e' <= e -> Zpos (fst (shl_align m e e')) = Zpos m * 2 ^ (e - e').
Proof.
  intros H. unfold shl_align. destruct (e' - e) as [|d|d] eqn:E; cbn [fst]; [|lia|].
  - replace (e - e') with 0 by lia. lia.
  - replace (e - e') with (Zpos d) by lia. rewrite shift_pos_correct. rewrite Z.pow_pos_fold. ring.
Qed.
Lemma shl_exp m e e' : snd (shl_align m e e') = Z.min e e'.
Proof. unfold shl_align. destruct (e' - e) as [|d|d] eqn:E; cbn [snd]; lia. Qed.

(** ** Rounding of numbers that need no rounding *)

(** [c * 2^E] with 53 digits. *)
Definition full (c : positive) (E : Z) : Prop := Z.log2 (Zpos c) = 52 /\ -1074 <= E <= 971.

Lemma full_fexp c E : full c E -> fexp dprec demax (53 + E) = E.
Proof. intros [_ H]. unfold fexp, emin, dprec, demax. lia. Qed.

Lemma shr_exact c E m e : full c E -> e <= E -> Zpos m = Zpos c * 2 ^ (E - e) -> shr_fexp dprec demax (Zpos m) e loc_Exact = (Build_shr_record (Zpos c) false false, E).
Proof.
  intros Hc He Hm. unfold shr_fexp. cbn [shr_record_of_loc Zdigits2]. rewrite digits_log2, Hm, Z.log2_mul_pow2, (proj1 Hc) by lia.
  replace (E - e + 52 + 1 + e) with (53 + E) by lia. rewrite (full_fexp _ _ Hc). unfold shr. destruct (E - e) as [|n|n] eqn:En; [|rewrite shr_iter by lia; f_equal; lia|lia].
  f_equal; [f_equal; lia|lia].
Qed.

Lemma round_aux_exact s c E m e : full c E -> e <= E -> Zpos m = Zpos c * 2 ^ (E - e) -> binary_round_aux dprec demax s (Zpos m) e loc_Exact = S754_finite s c E.
Proof.
  intros Hc He Hm. unfold binary_round_aux. rewrite (shr_exact c E) by done. cbn [shr_m loc_of_shr_record round_nearest_even].
  rewrite (shr_exact c E c E) by (try done; rewrite ?Z.sub_diag; lia). cbn [shr_m]. destruct Hc as [_ Hc]. assert ((E <=? demax - dprec) = true) as -> by (unfold demax, dprec; lia). done.
Qed.

(** [m * 2^e = c * 2^E]. *)
Definition equal_value (m : positive) (e : Z) (c : positive) (E : Z) : Prop :=
  (e <= E /\ Zpos m = Zpos c * 2 ^ (E - e)) \/ (E <= e /\ Zpos c = Zpos m * 2 ^ (e - E)).

Lemma round_exact s c E m e : full c E -> equal_value m e c E -> binary_round dprec demax s m e = S754_finite s c E.
Proof.
  intros Hc Hv. unfold binary_round. assert (fexp dprec demax (Zpos (digits2_pos m) + e) = E) as Hf.
  { rewrite digits_log2, <- (full_fexp c E Hc) at 1. f_equal. destruct Hc as [Hl _]. destruct Hv as [[H1 H2]|[H1 H2]].
    - rewrite H2, Z.log2_mul_pow2 by lia. lia.
    - rewrite H2, Z.log2_mul_pow2 in Hl by lia. lia. }
  rewrite Hf. pose proof (shl_exp m e E) as He. destruct (shl_align m e E) as [mz ez] eqn:Ea. cbn [snd] in He. subst ez. destruct Hv as [[H1 H2]|[H1 H2]].
  - assert (mz = m) as ->. { unfold shl_align in Ea. destruct (E - e) eqn:?; [by injection Ea|by injection Ea|lia]. }
    apply round_aux_exact; [done|lia|]. rewrite Z.min_l by lia. done.
  - pose proof (shl_value m e E H1) as Hm. rewrite Ea in Hm. cbn [fst] in Hm. apply round_aux_exact; [done|lia|]. rewrite Z.min_r, Z.sub_diag by lia. lia.
Qed.

(** ** Integers *)

(** The number with sign [s] and absolute value [p]. *)
Definition top (p : positive) : positive := Z.to_pos (Zpos p * 2 ^ (52 - Z.log2 (Zpos p))).
Definition exponent (p : positive) : Z := Z.log2 (Zpos p) - 52.
Definition small (z : Z) : Prop := Z.abs z < 2 ^ 53.

Lemma small_log2 p : small (Zpos p) -> 0 <= Z.log2 (Zpos p) <= 52.
Proof. intros H. split; [apply Z.log2_nonneg|]. assert (Z.log2 (Zpos p) < 53); [|lia]. apply Z.log2_lt_pow2; [lia|]. unfold small in H. lia. Qed.
Lemma top_value p : small (Zpos p) -> Zpos (top p) = Zpos p * 2 ^ (- exponent p).
Proof. intros H%small_log2. unfold top, exponent. replace (- (Z.log2 (Zpos p) - 52)) with (52 - Z.log2 (Zpos p)) by lia. apply Z2Pos.id. assert (0 < 2 ^ (52 - Z.log2 (Zpos p))) by (apply Z.pow_pos_nonneg; lia). nia. Qed.
Lemma top_full p : small (Zpos p) -> full (top p) (exponent p).
Proof.
  intros H. pose proof (small_log2 p H). unfold full. rewrite top_value by done. unfold exponent. rewrite Z.log2_mul_pow2 by lia. lia.
Qed.
(** [p * 2^k] at exponent [-k]. *)
Lemma top_equal p k m : small (Zpos p) -> 0 <= k -> Zpos m = Zpos p * 2 ^ k -> equal_value m (- k) (top p) (exponent p).
Proof.
  intros Hp Hk Hm. pose proof (small_log2 p Hp) as Hl. rewrite <- Z.le_0_sub in Hk. destruct (Z.le_ge_cases (- k) (exponent p)) as [H|H]; [left|right]; (split; [done|]).
  - rewrite top_value, Hm by done. rewrite <- Z.mul_assoc, <- Z.pow_add_r by (unfold exponent in *; lia). do 2 f_equal. lia.
  - rewrite top_value, Hm by done. rewrite <- Z.mul_assoc, <- Z.pow_add_r by (unfold exponent in *; lia). do 2 f_equal. lia.
Qed.

Lemma normalize_int z k : small z -> 0 <= k -> binary_normalize dprec demax (z * 2 ^ k) (- k) false = d_of_Z z.
Proof.
  intros Hz Hk. assert (0 < 2 ^ k) as H2 by (apply Z.pow_pos_nonneg; lia). unfold d_of_Z. destruct z as [|p|p]; [done|..].
  - destruct (Zpos p * 2 ^ k) as [|m|m] eqn:E; [nia| |nia]. cbn [binary_normalize]. rewrite (round_exact _ (top p) (exponent p) m), (round_exact _ (top p) (exponent p) p); [done|..]; try (by apply top_full).
    + apply (top_equal p 0 p); [done|lia|lia].
    + by apply top_equal.
  - assert (small (Zpos p)) as Hp by (unfold small in *; lia).
    destruct (Zneg p * 2 ^ k) as [|m|m] eqn:E; [nia|nia|]. cbn [binary_normalize]. rewrite (round_exact _ (top p) (exponent p) m), (round_exact _ (top p) (exponent p) p); [done|..]; try (by apply top_full).
    + apply (top_equal p 0 p); [done|lia|lia].
    + apply top_equal; [done|done|nia].
Qed.

Lemma d_of_pos p : small (Zpos p) -> d_of_Z (Zpos p) = S754_finite false (top p) (exponent p).
Proof. intros H. unfold d_of_Z. cbn [binary_normalize]. apply round_exact; [by apply top_full|]. apply (top_equal p 0 p); [done|lia|lia]. Qed.
Lemma d_of_neg p : small (Zpos p) -> d_of_Z (Zneg p) = S754_finite true (top p) (exponent p).
Proof. intros H. unfold d_of_Z. cbn [binary_normalize]. apply round_exact; [by apply top_full|]. apply (top_equal p 0 p); [done|lia|lia]. Qed.
Lemma small_pos p : small (Zneg p) -> small (Zpos p).
Proof. done. Qed.

(** Both numbers at the smaller exponent. *)
Lemma aligned p e : small (Zpos p) -> e <= exponent p -> Zpos (fst (shl_align (top p) (exponent p) e)) = Zpos p * 2 ^ (- e).
Proof.
  intros H He. pose proof (small_log2 p H). rewrite shl_value, top_value by done. rewrite <- Z.mul_assoc, <- Z.pow_add_r by (unfold exponent in *; lia). do 2 f_equal. lia.
Qed.
Lemma exponent_neg p : small (Zpos p) -> exponent p <= 0.
Proof. intros H%small_log2. unfold exponent. lia. Qed.

(** Zero is neutral. *)
Lemma d_add_int_0_l b : small b -> d_add (d_of_Z 0) (d_of_Z b) = d_of_Z b.
Proof. intros H. change (d_of_Z 0) with d_zero. destruct b as [|q|q]; [done|rewrite d_of_pos by done; done|rewrite d_of_neg by done; done]. Qed.
Lemma d_add_int_0_r a : small a -> d_add (d_of_Z a) (d_of_Z 0) = d_of_Z a.
Proof. intros H. change (d_of_Z 0) with d_zero. destruct a as [|q|q]; [done|rewrite d_of_pos by done; done|rewrite d_of_neg by done; done]. Qed.
Lemma d_sub_int_0_l b : small b -> d_sub (d_of_Z 0) (d_of_Z b) = d_of_Z (- b).
Proof. intros H. change (d_of_Z 0) with d_zero. destruct b as [|q|q]; [done|change (- Zpos q) with (Zneg q)|change (- Zneg q) with (Zpos q)]; rewrite d_of_pos, d_of_neg by done; done. Qed.
Lemma d_sub_int_0_r a : small a -> d_sub (d_of_Z a) (d_of_Z 0) = d_of_Z a.
Proof. intros H. change (d_of_Z 0) with d_zero. destruct a as [|q|q]; [done|rewrite d_of_pos by done; done|rewrite d_of_neg by done; done]. Qed.

Ltac align p q := let k := fresh "k" in unfold d_add, d_sub, SFadd, SFsub, cond_Zopp; cbv zeta; rewrite !aligned by (try done; lia);
    pose proof (exponent_neg p ltac:(done)); pose proof (exponent_neg q ltac:(done));
    set (k := - Z.min (exponent p) (exponent q)); replace (Z.min (exponent p) (exponent q)) with (- k) by lia; rewrite <- normalize_int with (k := k) by (try done; lia); f_equal; rewrite ?Z.opp_involutive; nia.
Lemma d_add_int a b : small a -> small b -> small (a + b) -> d_add (d_of_Z a) (d_of_Z b) = d_of_Z (a + b).
Proof.
  intros Ha Hb Hs. destruct (decide (a = 0)) as [->|Na]; [by apply d_add_int_0_l|]. destruct (decide (b = 0)) as [->|Nb]; [rewrite Z.add_0_r; by apply d_add_int_0_r|].
  destruct a as [|p|p], b as [|q|q]; try done; rewrite ?(d_of_pos p), ?(d_of_neg p), ?(d_of_pos q), ?(d_of_neg q) by done; align p q.
Qed.
Lemma d_sub_int a b : small a -> small b -> small (a - b) -> d_sub (d_of_Z a) (d_of_Z b) = d_of_Z (a - b).
Proof.
  intros Ha Hb Hs. destruct (decide (a = 0)) as [->|Na]; [by apply d_sub_int_0_l|]. destruct (decide (b = 0)) as [->|Nb]; [rewrite Z.sub_0_r; by apply d_sub_int_0_r|].
  destruct a as [|p|p], b as [|q|q]; try done; rewrite ?(d_of_pos p), ?(d_of_neg p), ?(d_of_pos q), ?(d_of_neg q) by done; align p q.
Qed.
Lemma small_square a : small (a * a) -> small a.
Proof. unfold small. intros H. destruct (Z.lt_ge_cases (Z.abs a) (2 ^ 53)); [done|]. nia. Qed.
Lemma d_square_pos s p : small (Zpos (p * p)) -> d_mul (S754_finite s (top p) (exponent p)) (S754_finite s (top p) (exponent p)) = d_of_Z (Zpos (p * p)).
Proof.
  intros H. assert (small (Zpos p)) as Hp by (apply small_square; done). rewrite d_of_pos by done. unfold d_mul, SFmul. rewrite xorb_nilpotent.
  pose proof (small_log2 _ Hp). pose proof (small_log2 _ H). assert (2 * Z.log2 (Zpos p) <= Z.log2 (Zpos (p * p))) as Hl.
  { rewrite Pos2Z.inj_mul. pose proof (Z.log2_mul_below (Zpos p) (Zpos p)). lia. }
  apply round_aux_exact; [by apply top_full|unfold exponent; lia|]. rewrite Pos2Z.inj_mul, !top_value by done. rewrite Pos2Z.inj_mul.
  rewrite <- !Z.mul_assoc, <- Z.pow_add_r by (unfold exponent; lia). f_equal. rewrite (Z.mul_comm (2 ^ _) (Zpos p * _)), <- Z.mul_assoc, <- Z.pow_add_r by (unfold exponent; lia). do 2 f_equal. unfold exponent. lia.
Qed.
Lemma d_square_int a : small (a * a) -> d_mul (d_of_Z a) (d_of_Z a) = d_of_Z (a * a).
Proof.
  intros H. pose proof (small_square a H) as Ha. destruct a as [|p|p]; [done|..].
  - rewrite d_of_pos by done. by apply d_square_pos.
  - rewrite d_of_neg by done. by apply d_square_pos.
Qed.

(** ** Order *)

Lemma d_of_nonneg a : 0 <= a -> d_nonneg (d_of_Z a).
Proof. destruct a as [|p|p]; [done| |lia]. intros _. apply round_nonneg. Qed.
Lemma d_le_int a b : 0 <= a -> 0 <= b -> small a -> small b -> d_le (d_of_Z a) (d_of_Z b) = (a <=? b).
Proof.
  intros Pa Pb Ha Hb. apply eq_true_iff_eq. rewrite d_le_rank by (by apply d_of_nonneg). rewrite Z.leb_le. destruct a as [|p|p], b as [|q|q]; try lia; rewrite ?(d_of_pos p), ?(d_of_pos q) by done; unfold rank_le; cbn [rank fst snd].
  - change (d_of_Z 0) with d_zero. cbn. lia.
  - change (d_of_Z 0) with d_zero. cbn. lia.
  - change (d_of_Z 0) with d_zero. cbn. lia.
  - rewrite !top_value by done. unfold exponent. pose proof (small_log2 p Ha). pose proof (small_log2 q Hb).
    destruct (Z.lt_trichotomy (Z.log2 (Zpos p)) (Z.log2 (Zpos q))) as [H1|[H1|H1]].
    + pose proof (Z.log2_lt_cancel _ _ H1). split; [lia|]. intros _. right. split; [done|]. left. lia.
    + rewrite H1. assert (0 < 2 ^ (- (Z.log2 (Zpos q) - 52))) by (apply Z.pow_pos_nonneg; lia). split; [intros [?|[_ [?|[_ ?]]]]; [lia|lia|nia]|]. intros. right. split; [done|]. right. split; [done|nia].
    + pose proof (Z.log2_lt_cancel _ _ H1). split; [lia|]. lia.
Qed.
Lemma d_lt_int a b : 0 <= a -> 0 <= b -> small a -> small b -> d_lt (d_of_Z a) (d_of_Z b) = (a <? b).
Proof. intros. rewrite d_lt_le by (by apply nonneg_number, d_of_nonneg). rewrite d_le_int by done. apply eq_true_iff_eq. rewrite negb_true_iff, Z.leb_gt, Z.ltb_lt. done. Qed.
