(** Reasoning about allocation: multiset accounting of live blocks. *)

From stdpp Require Import prelude list.
From Coq Require Import NArith ZArith.
From Verif Require Import Base World.

(** Number of occurrences of block [x]. *)
Fixpoint cnt (x : nat) (l : list nat) : nat :=
  match l with
  | [] => 0
  | b :: l' => (if decide (b = x) then 1 else 0) + cnt x l'
  end.

Lemma cnt_app x l1 l2 : cnt x (l1 ++ l2) = cnt x l1 + cnt x l2.
Proof. induction l1; simpl; lia. Qed.

Lemma cnt_elem x l : x ∈ l <-> 1 <= cnt x l.
Proof.
  induction l as [|b l IH]; simpl.
  - rewrite elem_of_nil. lia.
  - rewrite elem_of_cons, IH. destruct (decide (b = x)); subst.
    + split; [lia|auto].
    + split; [intros [?|?]; [congruence|lia] | right; lia].
Qed.

Lemma cnt_remove x b l : cnt x (remove_blk b l) = cnt x l - (if decide (b = x) then 1 else 0).
Proof.
  induction l as [|y l IH]; simpl.
  - lia.
  - destruct (decide (y = b)); subst; simpl.
    + lia.
    + rewrite IH. destruct (decide (y = x)), (decide (b = x)); subst; try lia; congruence.
Qed.

Lemma cnt_perm l1 l2 : (forall x, cnt x l1 = cnt x l2) <-> l1 ≡ₚ l2.
Proof.
  split.
  - revert l2. induction l1 as [|b l1 IH]; intros l2 H; simpl in H.
    + destruct l2 as [|c l2]; auto. specialize (H c). simpl in H. rewrite decide_True in H; auto. lia.
    + assert (b ∈ l2) as Hb. { apply cnt_elem. rewrite <- H. rewrite decide_True; auto. lia. }
      apply elem_of_list_split in Hb as (p & q & ->).
      rewrite <- Permutation_middle. constructor. apply IH.
      intros x. specialize (H x). rewrite cnt_app in H. simpl in H. rewrite cnt_app. lia.
  - induction 1; intros z; simpl; try lia. rewrite IHPermutation; auto.
    rewrite IHPermutation1; auto.
Qed.

(** [own w' o w]: the live blocks of [w'] are those of [w] plus [o]. *)
Definition own (w' : world) (o : list nat) (w : world) : Prop :=
  forall x, cnt x (w_live w') = cnt x o + cnt x (w_live w).

(** The world only moves forward, with the same allocation oracle. *)
Definition wle (w w' : world) : Prop :=
  w_fail w' = w_fail w /\ w_next w <= w_next w'.

(** From now on no allocation fails. *)
Definition no_fail (w : world) : Prop := forall i, w_next w <= i -> w_fail w i = false.

Lemma wle_refl w : wle w w.
Proof. split; auto. Qed.
Lemma wle_trans w1 w2 w3 : wle w1 w2 -> wle w2 w3 -> wle w1 w3.
Proof. intros [? ?] [? ?]. split; [congruence|lia]. Qed.
Global Hint Resolve wle_refl wle_trans : core.

Lemma no_fail_wle w w' : no_fail w -> wle w w' -> no_fail w'.
Proof. intros H [E ?] i Hi. rewrite E. apply H. lia. Qed.

Lemma own_refl w : own w [] w.
Proof. intros x. reflexivity. Qed.

Lemma own_perm w' w : own w' [] w <-> w_live w' ≡ₚ w_live w.
Proof. unfold own. simpl. apply cnt_perm. Qed.

(** Simplify and solve goals about [own]. *)
Ltac own_simp :=
  unfold own in *; simpl in *;
  repeat match goal with
  | H : context [cnt _ (_ ++ _)] |- _ => setoid_rewrite cnt_app in H
  | |- context [cnt _ (_ ++ _)] => setoid_rewrite cnt_app
  end; simpl in *.

Ltac own_spec z :=
  repeat match goal with
  | H : forall _ : nat, cnt _ (w_live _) = _ |- _ =>
      specialize (H z)
  end.

Ltac own_solve :=
  own_simp;
  let z := fresh "z" in
  intros z; own_spec z;
  repeat match goal with
  | H : w_live _ = _ |- _ => rewrite H in *; clear H
  end; simpl in *; rewrite ?cnt_app in *; simpl in *; lia.

Lemma Msat_malloc B n w (Q : option nat -> world -> Prop) :
  (forall w', wle w w' -> own w' [] w -> w_err w' = w_err w -> w_tick w' = w_tick w ->
     ~ no_fail w -> Q None w') ->
  (forall w' b, wle w w' -> own w' [b] w -> w_err w' = w_err w -> w_tick w' = w_tick w -> Q (Some b) w') ->
  Msat B (malloc n) w Q.
Proof.
  intros HN HS. unfold Msat, malloc. destruct (w_fail w (w_next w)) eqn:E; simpl.
  - apply HN; simpl; auto; try (split; simpl; auto; lia); try own_solve.
    intros Hnf. rewrite Hnf in E; [discriminate|lia].
  - apply HS; simpl; auto; try (split; simpl; auto; lia); own_solve.
Qed.

Lemma Msat_free_null B w (Q : unit -> world -> Prop) : Q tt w -> Msat B (free None) w Q.
Proof. auto. Qed.

Lemma Msat_free B b w (Q : unit -> world -> Prop) :
  1 <= cnt b (w_live w) ->
  (forall w', wle w w' ->
     (forall x, cnt x (w_live w) = (if decide (b = x) then 1 else 0) + cnt x (w_live w')) ->
     w_err w' = w_err w -> w_tick w' = w_tick w -> Q tt w') ->
  Msat B (free (Some b)) w Q.
Proof.
  intros Hb HQ. unfold Msat, free. rewrite decide_True by (by apply cnt_elem). simpl.
  apply HQ; simpl; auto; try (split; simpl; auto; lia).
  intros x. rewrite cnt_remove. destruct (decide (b = x)); subst; lia.
Qed.

Lemma Msat_set_err B e w (Q : unit -> world -> Prop) :
  (forall w', wle w w' -> own w' [] w -> w_err w' = e -> w_tick w' = w_tick w -> Q tt w') ->
  Msat B (set_err e) w Q.
Proof.
  intros HQ. unfold Msat, set_err. simpl. apply HQ; simpl; auto; try (split; simpl; auto; lia).
Qed.

Lemma Msat_make_error__ B ec msg f l w (Q : ecode -> world -> Prop) :
  (forall w', wle w w' -> own w' [] w -> w_err w' = ErrSt ec msg f l -> w_tick w' = w_tick w -> Q ec w') ->
  Msat B (make_error__ ec msg f l) w Q.
Proof.
  intros HQ. unfold make_error__. apply Msat_bind. apply Msat_set_err. intros. apply Msat_ret. auto.
Qed.
