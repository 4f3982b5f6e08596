(** Fully initialised arrays, reallocation, and bookkeeping tactics. *)

From stdpp Require Import prelude list.
From Coq Require Import NArith ZArith.
From Verif Require Import Base World Mem Digraph DigraphRep DigraphOps.

(** An allocated array whose cells hold exactly [l]. *)
Notation farr b l := (Some (Arr b (Some <$> l))).

Lemma aget_farr {A} b (l : list A) i x : l !! i = Some x -> aget (farr b l) i = Ok x.
Proof. intros H. simpl. apply cget_ok. by rewrite list_lookup_fmap, H. Qed.

Lemma aset_farr {A} b (l : list A) i x : i < length l -> aset (farr b l) i x = Ok (farr b (<[i:=x]> l)).
Proof.
  intros H. simpl. rewrite cset_ok by (by rewrite fmap_length). simpl. do 3 f_equal.
  by rewrite list_fmap_insert.
Qed.

Lemma replicate_farr {A} b n (x : A) : Some (Arr b (replicate n (Some x))) = farr b (replicate n x).
Proof. by rewrite fmap_replicate. Qed.

Lemma aset_cells {A} b (c : list (option A)) i x : i < length c ->
  aset (Some (Arr b c)) i x = Ok (Some (Arr b (<[i:=Some x]> c))).
Proof. intros H. simpl. by rewrite cset_ok. Qed.

Lemma aget_cells {A} b (c : list (option A)) i x : c !! i = Some (Some x) -> aget (Some (Arr b c)) i = Ok x.
Proof. intros H. simpl. by apply cget_ok. Qed.

(** ** Bookkeeping of blocks *)

Ltac blk_spec z :=
  repeat match goal with
  | H : forall _ : nat, _ |- _ =>
      match type of H with context [cnt _ _] => specialize (H z) end
  end.
Ltac blk_clear :=
  repeat match goal with
  | H : ?T |- _ =>
      lazymatch T with
      | context [cnt _ _] => fail
      | _ => clear H
      end
  end.
Ltac blk :=
  unfold own, dg_blocks in *;
  let z := fresh "z" in intros z;
  blk_spec z; blk_clear;
  simpl in *; rewrite ?cnt_app in *; simpl in *;
  repeat rewrite cnt_app in *; simpl in *; lia.

Lemma Msat_realloc_arr {A} B b (c : list (option A)) n w (Q : option (arr A) -> world -> Prop) :
  1 <= cnt b (w_live w) ->
  (forall w', wle w w' -> own w' [] w -> w_err w' = w_err w -> w_tick w' = w_tick w ->
     ~ no_fail w -> Q None w') ->
  (forall w' b', wle w w' ->
     (forall x, cnt x (w_live w') + cnt x [b] = cnt x (w_live w) + cnt x [b']) ->
     w_err w' = w_err w -> w_tick w' = w_tick w ->
     Q (Some (Arr b' (resize n c))) w') ->
  Msat B (realloc_arr (Some (Arr b c)) n) w Q.
Proof.
  intros Hl HN HS. unfold realloc_arr. apply Msat_bind.
  unfold Msat, realloc. simpl. rewrite decide_True by (by apply cnt_elem).
  destruct (w_fail w (w_next w)) eqn:Ef; simpl.
  - apply HN; simpl; auto; try (split; simpl; auto; lia); try (by intros x).
    intros Hnf. rewrite Hnf in Ef; [discriminate|lia].
  - apply HS; simpl; auto; try (split; simpl; auto; lia).
    intros x. simpl. rewrite cnt_remove. destruct (decide (b = x)); subst; lia.
Qed.

Lemma filled_resize {A} (c : list (option A)) xs n :
  filled c xs -> length xs <= n -> filled (resize n c) xs.
Proof. intros. unfold resize. apply filled_app_r. by apply filled_take. Qed.

Lemma resize_length {A} n (c : list (option A)) : length (resize n c) = n.
Proof. unfold resize, fresh. rewrite app_length, take_length, replicate_length. lia. Qed.

Global Arguments aget : simpl never.
Global Arguments aset : simpl never.
