(** Base of the model: outcomes with undefined behaviour, checked arrays, loops.

    Nothing in this file models a particular C function; it fixes how C
    behaviour is represented:
    - [R A] is the result of a computation that may hit undefined behaviour;
    - arrays are lists of cells, [None] being a cell that was never written;
    - [forR], [foldR], [loopR] are the loop forms used by the models. *)

From stdpp Require Import prelude list gmap.
From Coq Require Import NArith ZArith.

(** Kinds of undefined behaviour (and, last, exhaustion of the fuel that a
    model of an unbounded C loop was given). *)
Inductive ub : Set :=
| Oob        (* access outside an array, or pointer loop that overruns *)
| Uninit     (* read of a cell that was never written *)
| NullPtr    (* dereference of NULL *)
| BadFree    (* free/realloc of a block that is not live *)
| Arith      (* arithmetic without defined result: division by zero, negative index *)
| FuelOut.   (* the model's loop bound was reached *)

Inductive R (A : Type) : Type :=
| Ok (a : A)
| Bad (u : ub).
Arguments Ok {A} a.
Arguments Bad {A} u.

Definition Rbind {A B} (m : R A) (k : A -> R B) : R B :=
  match m with Ok a => k a | Bad u => Bad u end.

Notation "'let!' x ':=' m 'in' k" := (Rbind m (fun x => k))
  (at level 200, x pattern, m at level 100, k at level 200, right associativity).

(** [Rsat B m P]: [m] ends in a value satisfying [P], or in undefined behaviour
    of a kind allowed by [B]. With [B := none] this says "no undefined
    behaviour and the result satisfies P". *)
Definition Rsat {A} (B : ub -> Prop) (m : R A) (P : A -> Prop) : Prop :=
  match m with Ok a => P a | Bad u => B u end.

Definition none (_ : ub) : Prop := False.
Definition anyub (_ : ub) : Prop := True.

Lemma Rsat_bind {A C} B (m : R A) (k : A -> R C) P :
  Rsat B m (fun a => Rsat B (k a) P) -> Rsat B (Rbind m k) P.
Proof. destruct m; simpl; auto. Qed.

Lemma Rsat_mono {A} B (m : R A) (P Q : A -> Prop) :
  Rsat B m P -> (forall a, P a -> Q a) -> Rsat B m Q.
Proof. destruct m; simpl; auto. Qed.

Lemma Rsat_weaken {A} (B B' : ub -> Prop) (m : R A) P :
  (forall u, B u -> B' u) -> Rsat B m P -> Rsat B' m P.
Proof. destruct m; simpl; auto. Qed.

Lemma Rsat_bind_mono {A C} B (m : R A) (k : A -> R C) (Q : A -> Prop) P :
  Rsat B m Q -> (forall a, Q a -> Rsat B (k a) P) -> Rsat B (Rbind m k) P.
Proof. destruct m; simpl; auto. Qed.

Lemma Rsat_Ok {A} B (a : A) (P : A -> Prop) : P a -> Rsat B (Ok a) P.
Proof. auto. Qed.

Lemma Rsat_none_ok {A} (m : R A) P : Rsat none m P -> exists a, m = Ok a /\ P a.
Proof. destruct m; simpl; [eauto | intros []]. Qed.

Lemma Rsat_of_eq {A} B (m : R A) a (P : A -> Prop) : m = Ok a -> P a -> Rsat B m P.
Proof. intros ->. auto. Qed.

Lemma Rsat_inv {A} B (m : R A) a (P : A -> Prop) : m = Ok a -> Rsat B m P -> P a.
Proof. intros ->. auto. Qed.

Lemma Rsat_conj {A} B (m : R A) (P Q : A -> Prop) :
  Rsat B m P -> Rsat B m Q -> Rsat B m (fun a => P a /\ Q a).
Proof. destruct m; simpl; auto. Qed.

Lemma Rsat_forall {A X} B (m : R A) (P : X -> A -> Prop) (x0 : X) :
  (forall x, Rsat B m (P x)) -> Rsat B m (fun a => forall x, P x a).
Proof. destruct m; simpl; eauto. Qed.

Lemma Rsat_true {A} B (m : R A) P : Rsat B m P -> Rsat B m (fun _ => True).
Proof. intros H. eapply Rsat_mono; eauto. Qed.

(** ** Checked arrays *)

(** Read cell [i]. *)
Definition cget {A} (l : list (option A)) (i : nat) : R A :=
  match l !! i with
  | Some (Some x) => Ok x
  | Some None => Bad Uninit
  | None => Bad Oob
  end.

(** Write cell [i]. *)
Definition cset {A} (l : list (option A)) (i : nat) (x : A) : R (list (option A)) :=
  if decide (i < length l) then Ok (<[i := Some x]> l) else Bad Oob.

(** Read of an array that is fully initialised by its owner (e.g. the user). *)
Definition lget {A} (l : list A) (i : nat) : R A :=
  match l !! i with Some x => Ok x | None => Bad Oob end.

(** A freshly allocated array of [n] cells. *)
Definition fresh (A : Type) (n : nat) : list (option A) := replicate n None.

Lemma cget_ok {A} (l : list (option A)) i x : l !! i = Some (Some x) -> cget l i = Ok x.
Proof. unfold cget. intros ->. reflexivity. Qed.

Lemma cget_inv {A} (l : list (option A)) i x : cget l i = Ok x -> l !! i = Some (Some x).
Proof. unfold cget. destruct (l !! i) as [[y|]|]; congruence. Qed.

Lemma cset_ok {A} (l : list (option A)) i x : i < length l -> cset l i x = Ok (<[i := Some x]> l).
Proof. unfold cset. intros. rewrite decide_True; auto. Qed.

Lemma cset_inv {A} (l : list (option A)) i x l' :
  cset l i x = Ok l' -> i < length l /\ l' = <[i := Some x]> l.
Proof. unfold cset. case_decide; intros E; [injection E as <-; auto | discriminate]. Qed.

Lemma lget_ok {A} (l : list A) i x : l !! i = Some x -> lget l i = Ok x.
Proof. unfold lget. intros ->. reflexivity. Qed.

Lemma lget_inv {A} (l : list A) i x : lget l i = Ok x -> l !! i = Some x.
Proof. unfold lget. destruct (l !! i); congruence. Qed.

Lemma Rsat_cget {A} B (l : list (option A)) i x (P : A -> Prop) :
  l !! i = Some (Some x) -> P x -> Rsat B (cget l i) P.
Proof. intros H HP. rewrite (cget_ok _ _ _ H). exact HP. Qed.

Lemma Rsat_cset {A} B (l : list (option A)) i x (P : list (option A) -> Prop) :
  i < length l -> P (<[i := Some x]> l) -> Rsat B (cset l i x) P.
Proof. intros H HP. rewrite (cset_ok _ _ _ H). exact HP. Qed.

Lemma Rsat_lget {A} B (l : list A) i x (P : A -> Prop) :
  l !! i = Some x -> P x -> Rsat B (lget l i) P.
Proof. intros H HP. rewrite (lget_ok _ _ _ H). exact HP. Qed.

(** ** Loops *)

(** [for (j = i; n more times; ++j) s = f j s]. *)
Fixpoint forR {S} (n i : nat) (s : S) (f : nat -> S -> R S) : R S :=
  match n with
  | 0 => Ok s
  | Datatypes.S n' => let! s' := f i s in forR n' (Datatypes.S i) s' f
  end.

(** [for (p = lo; p != hi; ++p)]: with [hi < lo] the C loop runs off the array. *)
Definition for_ptr {S} (lo hi : nat) (s : S) (f : nat -> S -> R S) : R S :=
  if decide (hi < lo) then Bad Oob else forR (hi - lo) lo s f.

(** Loop with early exit: [inl s] continues with state [s], [inr t] leaves. *)
Fixpoint loopR {S T} (n i : nat) (s : S) (f : nat -> S -> R (S + T)) : R (S + T) :=
  match n with
  | 0 => Ok (inl s)
  | Datatypes.S n' =>
      let! r := f i s in
      match r with
      | inl s' => loopR n' (Datatypes.S i) s' f
      | inr t => Ok (inr t)
      end
  end.

Definition loop_ptr {S T} (lo hi : nat) (s : S) (f : nat -> S -> R (S + T)) : R (S + T) :=
  if decide (hi < lo) then Bad Oob else loopR (hi - lo) lo s f.

(** Left fold over a list. *)
Fixpoint foldR {A S} (f : A -> S -> R S) (s : S) (l : list A) : R S :=
  match l with
  | [] => Ok s
  | x :: l' => let! s' := f x s in foldR f s' l'
  end.

(** Left fold over a list with early exit. *)
Fixpoint foldXR {A S T} (f : A -> S -> R (S + T)) (s : S) (l : list A) : R (S + T) :=
  match l with
  | [] => Ok (inl s)
  | x :: l' =>
      let! r := f x s in
      match r with
      | inl s' => foldXR f s' l'
      | inr t => Ok (inr t)
      end
  end.

Lemma forR_sat {S} B (I : nat -> S -> Prop) n i s f :
  I i s ->
  (forall j s, i <= j < i + n -> I j s -> Rsat B (f j s) (I (Datatypes.S j))) ->
  Rsat B (forR n i s f) (I (i + n)).
Proof.
  revert i s. induction n as [|n IH]; intros i s H0 Hs; simpl.
  - by rewrite Nat.add_0_r.
  - apply Rsat_bind. eapply Rsat_mono; [apply Hs; [lia|auto]|].
    intros s' H'. replace (i + Datatypes.S n) with (Datatypes.S i + n) by lia.
    apply IH; auto. intros. apply Hs; auto; lia.
Qed.

(** Invariant rule for loops starting at 0. *)
Lemma forR_sat0 {S} B (I : nat -> S -> Prop) n s f (P : S -> Prop) :
  I 0 s ->
  (forall j s, j < n -> I j s -> Rsat B (f j s) (I (Datatypes.S j))) ->
  (forall s, I n s -> P s) ->
  Rsat B (forR n 0 s f) P.
Proof.
  intros H0 Hs HP. eapply Rsat_mono.
  - apply (forR_sat B I); [exact H0|]. intros; apply Hs; auto; lia.
  - simpl. auto.
Qed.

Lemma loopR_sat {S T} B (I : nat -> S -> Prop) (E : T -> Prop) n i s (f : nat -> S -> R (S + T)) :
  I i s ->
  (forall j s, i <= j < i + n -> I j s ->
     Rsat B (f j s) (fun r => match r with inl s' => I (Datatypes.S j) s' | inr t => E t end)) ->
  Rsat B (loopR n i s f) (fun r => match r with inl s' => I (i + n) s' | inr t => E t end).
Proof.
  revert i s. induction n as [|n IH]; intros i s H0 Hs; simpl.
  - by rewrite Nat.add_0_r.
  - apply Rsat_bind. eapply Rsat_mono; [apply Hs; [lia|auto]|].
    intros [s'|t] H'; [|exact H'].
    replace (i + Datatypes.S n) with (Datatypes.S i + n) by lia.
    apply IH; auto. intros. apply Hs; auto; lia.
Qed.

Lemma foldR_sat {A S} B (I : list A -> S -> Prop) (f : A -> S -> R S) s l :
  I [] s ->
  (forall pre x post s, l = pre ++ x :: post -> I pre s -> Rsat B (f x s) (I (pre ++ [x]))) ->
  Rsat B (foldR f s l) (I l).
Proof.
  intros H0 Hs.
  assert (forall post pre s, l = pre ++ post -> I pre s -> Rsat B (foldR f s post) (I l)) as G.
  { induction post as [|x post IH]; intros pre s' E HI; simpl.
    - rewrite app_nil_r in E. by subst.
    - apply Rsat_bind. eapply Rsat_mono; [eapply Hs; eauto|].
      intros s'' H''. apply (IH (pre ++ [x])); auto. by rewrite <- app_assoc. }
  apply (G l []); auto.
Qed.

Lemma foldXR_sat {A S T} B (I : list A -> S -> Prop) (E : T -> Prop) (f : A -> S -> R (S + T)) s l :
  I [] s ->
  (forall pre x post s, l = pre ++ x :: post -> I pre s ->
     Rsat B (f x s) (fun r => match r with inl s' => I (pre ++ [x]) s' | inr t => E t end)) ->
  Rsat B (foldXR f s l) (fun r => match r with inl s' => I l s' | inr t => E t end).
Proof.
  intros H0 Hs.
  assert (forall post pre s, l = pre ++ post -> I pre s ->
    Rsat B (foldXR f s post) (fun r => match r with inl s' => I l s' | inr t => E t end)) as G.
  { induction post as [|x post IH]; intros pre s' Eq HI; simpl.
    - rewrite app_nil_r in Eq. by subst.
    - apply Rsat_bind. eapply Rsat_mono; [eapply Hs; eauto|].
      intros [s''|t] H''; [|exact H'']. apply (IH (pre ++ [x])); auto. by rewrite <- app_assoc. }
  apply (G l []); auto.
Qed.

(** Pointwise equal bodies give equal loops. *)
Lemma forR_ext {S} n i (s : S) f g :
  (forall j s, i <= j < i + n -> f j s = g j s) -> forR n i s f = forR n i s g.
Proof.
  revert i s. induction n as [|n IH]; intros i s H; simpl; auto.
  rewrite H by lia. destruct (g i s); simpl; auto. apply IH. intros; apply H; lia.
Qed.

Lemma forR_foldR {A S} (f : A -> S -> R S) (h : nat -> R A) l s i :
  (forall j x, l !! j = Some x -> h (i + j) = Ok x) ->
  forR (length l) i s (fun j s => let! x := h j in f x s) = foldR f s l.
Proof.
  revert i s. induction l as [|x l IH]; intros i s H; simpl; auto.
  rewrite <- (Nat.add_0_r i) at 1. rewrite (H 0 x) by reflexivity. simpl.
  destruct (f x s); simpl; auto.
  apply IH. intros j y Hj. replace (Datatypes.S i + j) with (i + Datatypes.S j) by lia. by apply H.
Qed.

Lemma loopR_foldXR {A S T} (f : A -> S -> R (S + T)) (h : nat -> R A) l s i :
  (forall j x, l !! j = Some x -> h (i + j) = Ok x) ->
  loopR (length l) i s (fun j s => let! x := h j in f x s) = foldXR f s l.
Proof.
  revert i s. induction l as [|x l IH]; intros i s H; simpl; auto.
  rewrite <- (Nat.add_0_r i) at 1. rewrite (H 0 x) by reflexivity. simpl.
  destruct (f x s) as [[s'|t]|]; simpl; auto.
  apply IH. intros j y Hj. replace (Datatypes.S i + j) with (i + Datatypes.S j) by lia. by apply H.
Qed.

Lemma foldR_app {A S} (f : A -> S -> R S) s l1 l2 :
  foldR f s (l1 ++ l2) = let! s' := foldR f s l1 in foldR f s' l2.
Proof.
  revert s. induction l1 as [|x l1 IH]; intros s; simpl; auto.
  destruct (f x s); simpl; auto.
Qed.

(** ** Fixed-width unsigned arithmetic *)

(** Value of [x] after conversion to an unsigned type with maximum [m]. *)
Definition wrapN (m : N) (x : nat) : nat := N.to_nat (N.of_nat x mod (m + 1)).

Lemma wrapN_small m x : (N.of_nat x <= m)%N -> wrapN m x = x.
Proof. intros H. unfold wrapN. rewrite N.mod_small by lia. apply Nat2N.id. Qed.

(** ** Partially filled arrays *)

(** The first [length xs] cells of [c] hold [xs]. *)
Definition filled {A} (c : list (option A)) (xs : list A) : Prop :=
  exists rest, c = (Some <$> xs) ++ rest.

Lemma filled_nil {A} (c : list (option A)) : filled c [].
Proof. by exists c. Qed.

Lemma filled_length {A} (c : list (option A)) xs : filled c xs -> length xs <= length c.
Proof. intros [r ->]. rewrite app_length, fmap_length. lia. Qed.

Lemma filled_lookup {A} (c : list (option A)) xs i x :
  filled c xs -> xs !! i = Some x -> c !! i = Some (Some x).
Proof.
  intros [r ->] H. rewrite lookup_app_l.
  - by rewrite list_lookup_fmap, H.
  - rewrite fmap_length. eapply lookup_lt_Some; eauto.
Qed.

Lemma filled_snoc {A} (c : list (option A)) xs x :
  filled c xs -> length xs < length c -> filled (<[length xs := Some x]> c) (xs ++ [x]).
Proof.
  intros [r ->] H. rewrite app_length, fmap_length in H.
  destruct r as [|y r]; [simpl in H; lia|].
  exists r. rewrite insert_app_r_alt by (rewrite fmap_length; lia).
  rewrite fmap_length, Nat.sub_diag. simpl. rewrite fmap_app. simpl. by rewrite <- app_assoc.
Qed.

Lemma filled_full {A} (c : list (option A)) xs :
  filled c xs -> length c = length xs -> c = Some <$> xs.
Proof.
  intros [r ->] H. rewrite app_length, fmap_length in H.
  destruct r; [by rewrite app_nil_r | simpl in H; lia].
Qed.

(** Split conjunctions only. *)
Ltac splits := repeat match goal with |- _ /\ _ => split end.
