(** Sorting of point indices, as compiled with SCC_STABLE_NNG. *)

From stdpp Require Import prelude list sorting.
From Coq Require Import NArith ZArith.
From Verif Require Import Base World Arrays.

(** ** Model *)

(** The elements at the [cnt] indices from [lo] on. *)
Fixpoint get_run (a : option (arr nat)) (lo cnt : nat) : R (list nat) :=
  match cnt with
  | 0 => Ok []
  | S cnt => let! x := aget a lo in let! l := get_run a (S lo) cnt in Ok (x :: l)
  end.

Fixpoint put_run (a : option (arr nat)) (lo : nat) (l : list nat) : R (option (arr nat)) :=
  match l with
  | [] => Ok a
  | x :: l => let! a := aset a lo x in put_run a (S lo) l
  end.

(** [qsort(a + lo, cnt, sizeof(scc_PointIndex), iscc_compare_PointIndex)]: the
    comparison (src/nng_core.c 1046-1051, src/nng_batch_clustering.c 177-182)
    orders indices by value, so every sorting algorithm gives this result. *)
Definition qsort_run (a : option (arr nat)) (lo cnt : nat) : R (option (arr nat)) :=
  let! l := get_run a lo cnt in
  put_run a lo (merge_sort (≤) l).

(** ** Specification *)

(** [st]: whether neighbours are listed in the order of their indices. *)
Definition arrange (st : bool) (l : list nat) : list nat := if st then merge_sort (≤) l else l.

Lemma arrange_perm st l : arrange st l ≡ₚ l.
Proof. destruct st; [apply merge_sort_Permutation|done]. Qed.

Lemma elem_of_arrange st l x : x ∈ arrange st l <-> x ∈ l.
Proof. by rewrite arrange_perm. Qed.

Lemma arrange_length st l : length (arrange st l) = length l.
Proof. by rewrite arrange_perm. Qed.

Lemma arrange_nil st : arrange st [] = [].
Proof. by destruct st. Qed.

Lemma arrange_NoDup st l : NoDup (arrange st l) <-> NoDup l.
Proof. by rewrite arrange_perm. Qed.

Lemma arrange_sorted l : StronglySorted (≤) (arrange true l).
Proof. apply StronglySorted_merge_sort; apply _. Qed.

(** ** Sorting inside a larger array *)

Lemma get_run_filled B c lo l b : (forall j x, l !! j = Some x -> c !! (lo + j) = Some (Some x)) ->
  Rsat B (get_run (Some (Arr b c)) lo (length l)) (fun l' => l' = l).
Proof.
  revert lo. induction l as [|x l IH]; intros lo H; simpl; [done|].
  assert (c !! lo = Some (Some x)) as Hx by (rewrite <- (Nat.add_0_r lo); by apply H).
  rewrite (aget_cells b c lo x) by done. cbn [Rbind]. apply Rsat_bind. eapply Rsat_mono.
  - apply IH. intros j y Hj. replace (S lo + j) with (lo + S j) by lia. by apply H.
  - intros l' ->. done.
Qed.

Lemma put_run_sat B c lo l b : lo + length l <= length c ->
  Rsat B (put_run (Some (Arr b c)) lo l) (fun a => exists c', a = Some (Arr b c') /\ length c' = length c /\
    forall i, c' !! i = if decide (lo <= i /\ i < lo + length l) then Some <$> (l !! (i - lo)) else c !! i).
Proof.
  revert c lo. induction l as [|x l IH]; intros c lo H; simpl in *.
  - exists c. split; [done|]. split; [done|]. intros i. by rewrite decide_False by lia.
  - rewrite aset_cells by lia. cbn [Rbind]. eapply Rsat_mono; [apply IH; rewrite insert_length; lia|].
    intros a (c' & -> & Hl & Hc'). exists c'. rewrite insert_length in Hl. split; [done|]. split; [done|].
    intros i. rewrite Hc'. destruct (decide (i = lo)) as [->|Hne].
    + rewrite decide_False by lia. rewrite decide_True by lia. rewrite Nat.sub_diag. rewrite list_lookup_insert by lia. done.
    + rewrite list_lookup_insert_ne by done.
      destruct (decide (S lo <= i /\ i < S lo + length l)).
      * rewrite decide_True by lia. replace (i - lo) with (S (i - S lo)) by lia. done.
      * by rewrite decide_False by lia.
Qed.

Lemma qsort_run_sat B c lo l b : (forall j x, l !! j = Some x -> c !! (lo + j) = Some (Some x)) -> lo + length l <= length c ->
  Rsat B (qsort_run (Some (Arr b c)) lo (length l)) (fun a => exists c', a = Some (Arr b c') /\ length c' = length c /\
    forall i, c' !! i = if decide (lo <= i /\ i < lo + length l) then Some <$> (arrange true l !! (i - lo)) else c !! i).
Proof.
  intros H Hl. unfold qsort_run. apply Rsat_bind. eapply Rsat_mono; [by apply get_run_filled|]. intros l' ->.
  assert (length (merge_sort (≤) l) = length l) as E by (by rewrite merge_sort_Permutation).
  eapply Rsat_mono; [apply put_run_sat; by rewrite E|]. simpl. rewrite E. done.
Qed.
