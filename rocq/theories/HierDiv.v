(** Dividing one cluster in two: edge lists and assignment of members. *)

From stdpp Require Import prelude list sorting.
From Coq Require Import NArith ZArith.
From Verif Require Import Base World Mem Float Spi Options Digraph DigraphRep DigraphOps Arrays Hier HierSpec.

(** Store the list [ms] starts at cell [off]. *)
Definition stored {A} (c : list (option A)) (off : nat) (ms : list A) : Prop :=
  forall i x, ms !! i = Some x -> c !! (off + i) = Some (Some x).

Lemma stored_nil {A} (c : list (option A)) off : stored c off [].
Proof. intros i x. by rewrite lookup_nil. Qed.

Lemma stored_same {A} (c c' : list (option A)) off ms :
  stored c off ms -> (forall i, off <= i < off + length ms -> c' !! i = c !! i) -> stored c' off ms.
Proof. intros H E i x Hi. rewrite E; [by apply H|]. apply lookup_lt_Some in Hi. lia. Qed.

Lemma stored_snoc {A} (c : list (option A)) off ms x :
  stored c off ms -> off + length ms < length c -> stored (<[off + length ms := Some x]> c) off (ms ++ [x]).
Proof.
  intros H Hl i y Hi. destruct (decide (i = length ms)) as [->|Hne].
  - rewrite list_lookup_insert by lia. rewrite lookup_app_r, Nat.sub_diag in Hi by lia. by inversion Hi.
  - pose proof (lookup_lt_Some _ _ _ Hi) as Hlt. rewrite app_length in Hlt. simpl in Hlt. rewrite list_lookup_insert_ne by lia. apply H.
    by rewrite lookup_app_l in Hi by lia.
Qed.

Lemma stored_cons {A} (c : list (option A)) off ms x :
  stored c (S off) ms -> off < length c -> stored (<[off := Some x]> c) off (x :: ms).
Proof.
  intros H Hl [|i] y Hi.
  - rewrite Nat.add_0_r, list_lookup_insert by lia. by inversion Hi.
  - rewrite list_lookup_insert_ne by lia. rewrite <- Nat.add_succ_comm. by apply H.
Qed.

Lemma stored_app {A} (c : list (option A)) off l1 l2 : stored c off (l1 ++ l2) <-> stored c off l1 /\ stored c (off + length l1) l2.
Proof.
  split.
  - intros H. split; intros i x Hi.
    + apply H. rewrite lookup_app_l; [done|]. by eapply lookup_lt_Some.
    + rewrite <- Nat.add_assoc. apply H. rewrite lookup_app_r by lia. by replace (length l1 + i - length l1) with i by lia.
  - intros [H1 H2] i x Hi. destruct (decide (i < length l1)).
    + apply H1. by rewrite lookup_app_l in Hi by lia.
    + rewrite lookup_app_r in Hi by lia. apply H2 in Hi. by replace (off + length l1 + (i - length l1)) with (off + i) in Hi by lia.
Qed.

Lemma stored_get {A} b (c : list (option A)) off ms i x : stored c off ms -> ms !! i = Some x -> aget (Some (Arr b c)) (off + i) = Ok x.
Proof. intros H Hi. apply aget_cells. by apply H. Qed.

Lemma stored_bound {A} (c : list (option A)) off ms : stored c off ms -> ms <> [] -> off + length ms <= length c.
Proof.
  intros H Hn. destruct (lookup_lt_is_Some_2 ms (length ms - 1)) as [x Hx]; [destruct ms; simpl; [done|lia]|].
  apply H, lookup_lt_Some in Hx. destruct ms; [done|]. simpl in *. lia.
Qed.

Lemma filled_holds {A} (c : list (option A)) ms : filled c ms -> stored c 0 ms.
Proof. intros H i x Hi. simpl. by eapply filled_lookup. Qed.

(** ** Edge lists *)

(** The edges behind edge [i], with their heads and distances. *)
Fixpoint chain (hd : list (option (nat * double))) (nx : list (option (option nat))) (i : nat) (l : list (nat * (nat * double))) : Prop :=
  match l with
  | [] => nx !! i = Some (Some None)
  | (j, x) :: l' => nx !! i = Some (Some (Some j)) /\ i < j /\ hd !! j = Some (Some x) /\ chain hd nx j l'
  end.

Notation heads l := ((fun p : nat * (nat * double) => p.2.1) <$> l).

Lemma chain_same hd nx nx' i l : chain hd nx i l -> (forall j, i <= j -> nx' !! j = nx !! j) -> chain hd nx' i l.
Proof.
  revert i. induction l as [|[j x] l IH]; intros i H E; simpl in *; [by rewrite E|].
  destruct H as (H1 & H2 & H3 & H4). rewrite E by lia. splits; auto. apply IH; auto. intros j' Hj'. apply E. lia.
Qed.

Lemma chain_bound hd nx i l : chain hd nx i l -> i + length l < length nx.
Proof.
  revert i. induction l as [|[j x] l IH]; intros i H; simpl in *.
  - apply lookup_lt_Some in H. lia.
  - destruct H as (H1 & H2 & H3 & H4%IH). lia.
Qed.

(** The marks tell whether the head of an edge is in [U]. *)
Definition marks_ok (M : list N) (cm : N) (U : list nat) (l : list (nat * (nat * double))) : Prop :=
  forall p, p ∈ l -> exists v, M !! p.2.1 = Some v /\ (v = cm <-> p.2.1 ∉ U).

Lemma next_dist_sat bm M cm U b hd fuel : forall nx prev l1 q x l2,
  chain hd nx prev (l1 ++ (q, x) :: l2) -> marks_ok M cm U (l1 ++ (q, x) :: l2) ->
  Forall (fun p : nat * (nat * double) => p.2.1 ∉ U) l1 -> x.1 ∈ U -> length l1 < fuel ->
  exists nx', next_dist fuel (Some (ES b hd nx)) prev (farr bm M) cm = Ok (q, Some (ES b hd nx')) /\
    length nx' = length nx /\ (forall j, j <> prev -> nx' !! j = nx !! j) /\ chain hd nx' prev ((q, x) :: l2).
Proof.
  induction fuel as [|fuel IH]; intros nx prev l1 q x l2 Hc Hm Hl1 Hx Hf; [lia|].
  destruct l1 as [|[q1 x1] l1]; cbn [app chain] in Hc; destruct Hc as (H1 & H2 & H3 & H4); simpl.
  - rewrite (cget_ok _ _ _ H1). simpl. rewrite (cget_ok _ _ _ H3). simpl. destruct (Hm (q, x)) as (v & Hv & Hiff); [left|]. simpl in Hv, Hiff.
    rewrite (aget_farr _ _ _ _ Hv). simpl. rewrite decide_False by (intros E; by apply Hiff in E). exists nx. by splits.
  - rewrite (cget_ok _ _ _ H1). simpl. rewrite (cget_ok _ _ _ H3). simpl. destruct (Hm (q1, x1)) as (v & Hv & Hiff); [left|]. simpl in Hv, Hiff.
    rewrite (aget_farr _ _ _ _ Hv). simpl. apply Forall_cons in Hl1 as [Hh Hl1]. simpl in Hh. rewrite decide_True by by apply Hiff.
    assert (exists q', nx !! q1 = Some (Some (Some q')) /\ prev < q') as (q' & Hq' & Hlt).
    { destruct l1 as [|[q2 x2] l1]; cbn [app chain] in H4; destruct H4 as (? & ? & ?); eexists; split; [done|lia|done|lia]. }
    rewrite (cget_ok _ _ _ Hq'). simpl. rewrite cset_ok by (by eapply lookup_lt_Some). simpl.
    destruct (IH (<[prev:=Some (Some q')]> nx) prev l1 q x l2) as (nx' & E & Hlen & Hs & Hc'); auto.
    + assert (prev < length nx) as Hp by (by eapply lookup_lt_Some).
      destruct l1 as [|[q2 x2] l1]; cbn [app chain] in H4 |- *; destruct H4 as (G1 & G2 & G3 & G4); rewrite Hq' in G1; injection G1 as ->;
        rewrite list_lookup_insert by done; (splits; [done|lia|done|]); (eapply chain_same; [exact G4|]); intros j' Hj'; rewrite list_lookup_insert_ne; [done|lia|done|lia].
    + intros p Hp. apply Hm. by right.
    + simpl in Hf. lia.
    + exists nx'. rewrite insert_length in Hlen. split; [done|]. split; [done|]. split; [|done]. intros j Hj. rewrite Hs by done. by rewrite list_lookup_insert_ne by done.
Qed.

(** The first edge to an element of [U]. *)
Lemma split_first (U : list nat) (l : list (nat * (nat * double))) y r : filter (fun x => x ∈ U) (heads l) = y :: r ->
  exists l1 q x l2, l = l1 ++ (q, x) :: l2 /\ Forall (fun p : nat * (nat * double) => p.2.1 ∉ U) l1 /\ x.1 = y /\ x.1 ∈ U /\ filter (fun x => x ∈ U) (heads l2) = r.
Proof.
  induction l as [|[q x] l IH]; [done|]. cbn [fmap list_fmap]. rewrite filter_cons. simpl. case_decide as Hd; intros E.
  - injection E as <- <-. exists [], q, x, l. splits; auto.
  - destruct (IH E) as (l1 & q' & x' & l2 & -> & H1 & H2 & H3 & H4). exists ((q, x) :: l1), q', x', l2. splits; auto.
Qed.

Lemma next_k_sat bm M cm U b hd k : forall i nx prev l bo co pre a r,
  chain hd nx prev l -> marks_ok M cm U l -> filter (fun x => x ∈ U) (heads l) = a ++ r -> length a = k ->
  filled co pre -> length pre = i -> i + k <= length co ->
  exists t nx' co' l' l'', forR k i (prev, Some (ES b hd nx), Some (Arr bo co)) (fun found '(prev, e, out) =>
      let! r := next_dist (es_fuel e) e prev (farr bm M) cm in
      let '(prev, e) := r in
      let! hd := eget e prev in
      let! out := aset out found hd.1 in
      Ok (prev, e, out)) = Ok (t, Some (ES b hd nx'), Some (Arr bo co')) /\
    length nx' = length nx /\ (forall j, j < prev -> nx' !! j = nx !! j) /\ chain hd nx' prev l' /\ filter (fun x => x ∈ U) (heads l') = a ++ r /\
    chain hd nx' t l'' /\ filter (fun x => x ∈ U) (heads l'') = r /\ length co' = length co /\ filled co' (pre ++ a) /\
    (0 < k -> exists x, hd !! t = Some (Some x) /\ last a = Some x.1 /\ exists q, (q, x) ∈ l) /\ l' `sublist_of` l /\ prev <= t /\ l'' `sublist_of` l.
Proof.
  induction k as [|k IH]; intros i nx prev l bo co pre a r Hc Hm Hf Ha Hco Hi Hle; cbn [forR].
  - destruct a; [|done]. exists prev, nx, co, l, l. rewrite app_nil_r. splits; auto; lia.
  - destruct a as [|y a]; [done|]. simpl in Hf, Ha. destruct (split_first U l y (a ++ r) Hf) as (l1 & q & x & l2 & -> & H1 & H2 & H3 & H4).
    pose proof (chain_bound _ _ _ _ Hc) as Hb. rewrite app_length in Hb. simpl in Hb.
    destruct (next_dist_sat bm M cm U b hd (es_fuel (Some (ES b hd nx))) nx prev l1 q x l2 Hc Hm H1 H3) as (nx1 & E1 & Hl1 & Hs1 & Hc1); [simpl; lia|].
    pose proof Hc1 as (G1 & G2 & G3 & G4). rewrite E1. cbn [Rbind eget es_hd]. rewrite (cget_ok _ _ _ G3). cbn [Rbind]. rewrite aset_cells by lia. cbn [Rbind].
    destruct (IH (S i) nx1 q l2 bo (<[i:=Some x.1]> co) (pre ++ [x.1]) a r) as (t & nx' & co' & l' & l'' & E & Q1 & Q2 & Q3 & Q4 & Q5 & Q6 & Q7 & Q8 & Q9 & Q10 & Q11 & Q12); auto.
    + intros p Hp. apply Hm. apply elem_of_app. right. by right.
    + rewrite <- Hi. apply filled_snoc; [done|lia].
    + rewrite app_length. simpl. lia.
    + rewrite insert_length. lia.
    + exists t, nx', co', ((q, x) :: l'), l''. splits; auto; try lia.
      * intros j Hj. rewrite Q2 by lia. apply Hs1. lia.
      * cbn [chain]. splits; auto. by rewrite Q2 by lia.
      * cbn [fmap list_fmap]. rewrite filter_cons_True by done. simpl. rewrite Q4. by rewrite H2.
      * rewrite Q7. apply insert_length.
      * rewrite <- H2. by rewrite cons_middle, app_assoc.
      * intros _. destruct k as [|k].
        -- destruct a; [|done]. simpl in E. injection E as <- <- <-. exists x. split; [done|]. split; [by rewrite H2|]. exists q. apply elem_of_app. right. left.
        -- destruct Q9 as (x' & ? & Hlast & q' & Hq'); [lia|]. exists x'. split; [done|]. split; [|exists q'; apply elem_of_app; right; by right].
           destruct a; [done|]. by rewrite last_cons, Hlast.
      * apply sublist_inserts_l. by constructor.
      * apply sublist_inserts_l. by constructor.
Qed.

Definition mark_all (M : list N) (cm : N) (a : list nat) : list N := fold_left (fun M x => <[x:=cm]> M) a M.

Lemma mark_all_snoc M cm a x : mark_all M cm (a ++ [x]) = <[x:=cm]> (mark_all M cm a).
Proof. unfold mark_all. by rewrite fold_left_app. Qed.
Lemma mark_all_length M cm a : length (mark_all M cm a) = length M.
Proof. induction a as [|x a IH] using rev_ind; [done|]. by rewrite mark_all_snoc, insert_length. Qed.
Lemma mark_all_in M cm a x : x ∈ a -> x < length M -> mark_all M cm a !! x = Some cm.
Proof.
  induction a as [|y a IH] using rev_ind; [by intros ?%elem_of_nil|]. rewrite mark_all_snoc. intros Hx Hl. destruct (decide (x = y)) as [->|Hn].
  - apply list_lookup_insert. by rewrite mark_all_length.
  - rewrite list_lookup_insert_ne by done. apply IH; [|done]. apply elem_of_app in Hx as [Hx|Hx]; [done|]. by apply elem_of_list_singleton in Hx.
Qed.
Lemma mark_all_out M cm a x : x ∉ a -> mark_all M cm a !! x = M !! x.
Proof.
  induction a as [|y a IH] using rev_ind; [done|]. rewrite mark_all_snoc, not_elem_of_app, elem_of_list_singleton. intros [H1 H2].
  rewrite list_lookup_insert_ne by done. by apply IH.
Qed.

Lemma move_point1_sat B id sz m off bs c bm M cm (ms : list nat) : length ms = sz -> stored c off ms -> off + sz < length c -> id < length M ->
  Rsat B (move_point1 id (HI sz m off) (Some (Arr bs c)) (farr bm M) cm) (fun '(it, st, mk) => it = HI (sz + 1) m off /\ mk = farr bm (<[id:=cm]> M) /\
    exists c', st = Some (Arr bs c') /\ length c' = length c /\ stored c' off (ms ++ [id]) /\ forall i, i <> off + sz -> c' !! i = c !! i).
Proof.
  intros Hs Hh Hl Hid. unfold move_point1. rewrite aset_farr by done. cbn [Rbind hi_mem hi_size]. rewrite aset_cells by lia. cbn [Rbind Rsat hi_marker]. splits; auto.
  eexists. splits; [done|apply insert_length| |].
  - rewrite <- Hs. apply stored_snoc; [done|lia].
  - intros i Hi. by rewrite list_lookup_insert_ne.
Qed.

Lemma move_point2_sat B id sz m off bs c bm M cm (ms : list nat) : length ms = sz -> stored c off ms -> off <= length c -> 0 < off -> id < length M ->
  Rsat B (move_point2 id (HI sz m off) (Some (Arr bs c)) (farr bm M) cm) (fun '(it, st, mk) => it = HI (sz + 1) m (off - 1) /\ mk = farr bm (<[id:=cm]> M) /\
    exists c', st = Some (Arr bs c') /\ length c' = length c /\ stored c' (off - 1) (id :: ms) /\ forall i, i <> off - 1 -> c' !! i = c !! i).
Proof.
  intros Hs Hh Hl Hp Hid. unfold move_point2. cbn [hi_mem]. rewrite decide_False by lia. rewrite aset_farr by done. cbn [Rbind hi_mem hi_size]. rewrite aset_cells by lia.
  cbn [Rbind Rsat hi_marker]. splits; auto. eexists. splits; [done|apply insert_length| |].
  - apply stored_cons; [|lia]. by replace (S (off - 1)) with off by lia.
  - intros i Hi. by rewrite list_lookup_insert_ne.
Qed.

Lemma move_array1_sat B len bi ci a sz m off bs c bm M cm (ms : list nat) : filled ci a -> length a = len -> length ms = sz -> stored c off ms -> off + sz + len <= length c ->
  Forall (fun x => x < length M) a ->
  Rsat B (move_array1 len (Some (Arr bi ci)) (HI sz m off) (Some (Arr bs c)) (farr bm M) cm) (fun '(it, st, mk) => it = HI (sz + len) m off /\ mk = farr bm (mark_all M cm a) /\
    exists c', st = Some (Arr bs c') /\ length c' = length c /\ stored c' off (ms ++ a) /\ forall i, ~ (off + sz <= i < off + sz + len) -> c' !! i = c !! i).
Proof.
  intros Hf Ha Hs Hh Hl HM. unfold move_array1.
  apply (forR_sat0 B (fun j '(it, st, mk) => it = HI (sz + j) m off /\ mk = farr bm (mark_all M cm (take j a)) /\
    exists c', st = Some (Arr bs c') /\ length c' = length c /\ stored c' off (ms ++ take j a) /\ forall i, ~ (off + sz <= i < off + sz + j) -> c' !! i = c !! i)).
  - rewrite Nat.add_0_r. splits; auto. exists c. rewrite take_0, app_nil_r. by splits.
  - intros j [[it st] mk] Hj (-> & -> & c' & -> & Hlc & Hhc & Hc). destruct (lookup_lt_is_Some_2 a j) as [x Hx]; [lia|].
    rewrite (aget_cells _ _ _ x) by (by eapply filled_lookup). cbn [Rbind]. eapply Rsat_mono.
    + apply (move_point1_sat B x (sz + j) m off bs c' bm _ cm (ms ++ take j a)); auto.
      * rewrite app_length, take_length. lia.
      * lia.
      * rewrite mark_all_length. by eapply Forall_lookup_1 in HM.
    + intros [[it st] mk] (-> & -> & c2 & -> & Hlc2 & Hhc2 & Hc2). rewrite (take_S_r a j x Hx), mark_all_snoc, app_assoc. splits; [f_equal; lia|done|].
      exists c2. splits; auto; [lia|]. intros i Hi. rewrite Hc2 by lia. apply Hc. lia.
  - intros [[it st] mk]. by rewrite take_ge by lia.
Qed.

Lemma move_array2_sat B len bi ci a sz m off bs c bm M cm (ms : list nat) : filled ci a -> length a = len -> length ms = sz -> stored c off ms -> off <= length c -> len <= off ->
  Forall (fun x => x < length M) a ->
  Rsat B (move_array2 len (Some (Arr bi ci)) (HI sz m off) (Some (Arr bs c)) (farr bm M) cm) (fun '(it, st, mk) => it = HI (sz + len) m (off - len) /\ mk = farr bm (mark_all M cm a) /\
    exists c', st = Some (Arr bs c') /\ length c' = length c /\ stored c' (off - len) (rev a ++ ms) /\ forall i, ~ (off - len <= i < off) -> c' !! i = c !! i).
Proof.
  intros Hf Ha Hs Hh Hl Hle HM. unfold move_array2.
  apply (forR_sat0 B (fun j '(it, st, mk) => it = HI (sz + j) m (off - j) /\ mk = farr bm (mark_all M cm (take j a)) /\
    exists c', st = Some (Arr bs c') /\ length c' = length c /\ stored c' (off - j) (rev (take j a) ++ ms) /\ forall i, ~ (off - j <= i < off) -> c' !! i = c !! i)).
  - rewrite Nat.add_0_r, Nat.sub_0_r. splits; auto. exists c. by splits.
  - intros j [[it st] mk] Hj (-> & -> & c' & -> & Hlc & Hhc & Hc). destruct (lookup_lt_is_Some_2 a j) as [x Hx]; [lia|].
    rewrite (aget_cells _ _ _ x) by (by eapply filled_lookup). cbn [Rbind]. eapply Rsat_mono.
    + apply (move_point2_sat B x (sz + j) m (off - j) bs c' bm _ cm (rev (take j a) ++ ms)); auto; try lia.
      * rewrite app_length, rev_length, take_length. lia.
      * rewrite mark_all_length. by eapply Forall_lookup_1 in HM.
    + intros [[it st] mk] (-> & -> & c2 & -> & Hlc2 & Hhc2 & Hc2). rewrite (take_S_r a j x Hx), mark_all_snoc, rev_app_distr. cbn [rev app].
      replace (off - j - 1) with (off - S j) in * by lia. splits; [f_equal; lia|done|].
      exists c2. splits; auto; [lia|]. intros i Hi. rewrite Hc2 by lia. apply Hc. lia.
  - intros [[it st] mk]. by rewrite take_ge by lia.
Qed.

(** ** The assignment phase *)

(** The edges behind [last] lead to all of [U]; they are in order if [W]. *)
Definition avail (W : Prop) (D : nat -> double) (ms : list nat) (hd : list (option (nat * double))) (nx : list (option (option nat))) (last : nat) (U : list nat) : Prop :=
  exists l, chain hd nx last l /\ filter (fun x => x ∈ U) (heads l) ≡ₚ U /\ (forall p, p ∈ l -> p.2.1 ∈ ms /\ p.2.2 = D p.2.1) /\ (W -> StronglySorted (ord D) (heads l)).

Definition marked (M : list N) (cm : N) (ms U : list nat) : Prop :=
  forall x, x ∈ ms -> exists v, M !! x = Some v /\ (v <= cm)%N /\ (v = cm <-> x ∉ U).

Lemma filter_everything (U l : list nat) : (forall x, x ∈ l -> x ∈ U) -> filter (fun x => x ∈ U) l = l.
Proof. induction l as [|x l IH]; intros H; [done|]. rewrite filter_cons_True by (apply H; left). f_equal. apply IH. intros y Hy. apply H. by right. Qed.
Lemma filter_nothing (U l : list nat) : (forall x, x ∈ l -> x ∉ U) -> filter (fun x => x ∈ U) l = [].
Proof. induction l as [|x l IH]; intros H; [done|]. rewrite filter_cons_False by (apply H; left). apply IH. intros y Hy. apply H. by right. Qed.

Lemma avail_less W D ms hd nx last U a U' : avail W D ms hd nx last U -> U ≡ₚ a ++ U' -> NoDup U -> avail W D ms hd nx last U'.
Proof.
  intros (l & Hc & Hp & Hm & Hw) HU Hnd. exists l. splits; auto.
  assert (filter (fun x => x ∈ U') (heads l) = filter (fun x => x ∈ U') (filter (fun x => x ∈ U) (heads l))) as ->.
  { rewrite list_filter_filter. apply list_filter_iff. intros x. rewrite HU. set_solver. }
  rewrite Hp, HU, filter_app. rewrite HU in Hnd. apply NoDup_app in Hnd as (_ & Hd & _).
  rewrite filter_nothing by done. simpl. by rewrite filter_everything.
Qed.

Lemma avail_marks D ms U M cm l : (forall p : nat * (nat * double), p ∈ l -> p.2.1 ∈ ms /\ p.2.2 = D p.2.1) -> marked M cm ms U -> marks_ok M cm U l.
Proof. intros Hl HM p Hp. destruct (HM p.2.1) as (v & ? & ? & ?); [by apply Hl|]. eauto. Qed.

Lemma sublist_in {A} (l l' : list A) x : x ∈ l' -> l' `sublist_of` l -> x ∈ l.
Proof. intros H Hs. eapply elem_of_submseteq; [exact H|]. by apply sublist_submseteq. Qed.

Lemma sorted_sublist {A} (R : A -> A -> Prop) (l l' : list A) : StronglySorted R l -> l' `sublist_of` l -> StronglySorted R l'.
Proof.
  intros H Hs. induction Hs as [|x l1 l2 Hs IH|x l1 l2 Hs IH]; [constructor| |]; apply StronglySorted_inv in H as [H1 H2]; [|by apply IH].
  constructor; [by apply IH|]. rewrite Forall_forall in H2 |- *. intros y Hy. apply H2. eapply sublist_in; eauto.
Qed.

Lemma heads_sublist (l l' : list (nat * (nat * double))) : l' `sublist_of` l -> heads l' `sublist_of` heads l.
Proof. induction 1; simpl; by constructor. Qed.

Lemma filter_sublist_of (P : nat -> Prop) `{!forall x, Decision (P x)} (l : list nat) : filter P l `sublist_of` l.
Proof. induction l as [|x l IH]; [constructor|]. rewrite filter_cons. case_decide; by constructor. Qed.

Lemma sorted_app_le {A} (R : A -> A -> Prop) (l1 l2 : list A) : StronglySorted R (l1 ++ l2) -> forall x y, x ∈ l1 -> y ∈ l2 -> R x y.
Proof.
  induction l1 as [|z l1 IH]; intros H x y Hx Hy; [by apply elem_of_nil in Hx|]. simpl in H. apply StronglySorted_inv in H as [H1 H2].
  apply elem_of_cons in Hx as [->|Hx]; [|by apply IH]. rewrite Forall_forall in H2. apply H2. apply elem_of_app. by right.
Qed.

Lemma next_k_nn_sat W D ms hd nx last U M cm b bm bo co k : avail W D ms hd nx last U -> marked M cm ms U -> 0 < k -> k <= length U -> k <= length co ->
  Rsat none (next_k_nn (Some (ES b hd nx)) last k (farr bm M) cm (Some (Arr bo co))) (fun '(t, e, out) => exists nx' co' a U' y,
    e = Some (ES b hd nx') /\ out = Some (Arr bo co') /\ length nx' = length nx /\ length co' = length co /\ filled co' a /\ length a = k /\ U ≡ₚ a ++ U' /\
    avail W D ms hd nx' last U /\ avail W D ms hd nx' t U' /\ hd !! t = Some (Some (y, D y)) /\ list.last a = Some y /\ (W -> closest D U a U')).
Proof.
  intros (l & Hc & Hp & Hl & Hw) HM Hk HU Hco. set (F := filter (fun x => x ∈ U) (heads l)) in *.
  destruct (next_k_sat bm M cm U b hd k 0 nx last l bo co [] (take k F) (drop k F)) as (t & nx' & co' & l' & l'' & E & Q1 & Q2 & Q3 & Q4 & Q5 & Q6 & Q7 & Q8 & Q9 & Q10 & Q11 & Q12); auto.
  { by eapply (avail_marks D ms). }
  { by rewrite take_drop. }
  { rewrite take_length. rewrite Hp. lia. }
  { apply filled_nil. }
  unfold next_k_nn. rewrite E. cbn [Rsat]. destruct (Q9 Hk) as ([y d] & Hy & Hlast & q & Hq). cbn [fst] in Hlast.
  exists nx', co', (take k F), (drop k F), y. rewrite take_drop in Q4. splits; auto.
  - rewrite take_length, Hp. lia.
  - by rewrite take_drop.
  - exists l'. splits; auto.
    + by rewrite Q4.
    + intros p Hpl. apply Hl. by eapply sublist_in.
    + intros w. eapply sorted_sublist; [by apply Hw|by apply heads_sublist].
  - exists l''. splits; auto.
    2: { intros p Hpl. apply Hl. by eapply sublist_in. }
    2: { intros w. eapply sorted_sublist; [by apply Hw|by apply heads_sublist]. }
    assert (filter (fun x => x ∈ drop k F) (heads l'') = filter (fun x => x ∈ drop k F) (filter (fun x => x ∈ U) (heads l''))) as ->.
    { rewrite list_filter_filter. apply list_filter_iff. intros x. split; [|tauto]. intros Hx. split; [done|].
      rewrite <- Hp, <- (take_drop k F). apply elem_of_app. by right. }
    rewrite Q6. by rewrite filter_everything.
  - destruct (Hl _ Hq) as [_ Hd]. cbn in Hd. by rewrite <- Hd.
  - intros w. assert (StronglySorted (ord D) F) as HF by (eapply sorted_sublist; [by apply Hw|apply filter_sublist_of]).
    rewrite <- (take_drop k F) in HF. unfold closest. splits; [by rewrite take_drop| |by apply sorted_app_le]. eapply sorted_sublist; [exact HF|]. by apply sublist_inserts_r.
Qed.

Lemma next_dist_avail W D ms hd nx last U M cm b bm : avail W D ms hd nx last U -> marked M cm ms U -> U <> [] ->
  Rsat none (next_dist (es_fuel (Some (ES b hd nx))) (Some (ES b hd nx)) last (farr bm M) cm) (fun '(t, e) => exists nx' y U',
    e = Some (ES b hd nx') /\ length nx' = length nx /\ U ≡ₚ [y] ++ U' /\ avail W D ms hd nx' last U /\ avail W D ms hd nx' t U' /\ hd !! t = Some (Some (y, D y)) /\ (W -> closest D U [y] U')).
Proof.
  intros Ha HM HU. assert (0 < length U) as HU' by (destruct U; [done|simpl; lia]).
  pose proof (next_k_nn_sat W D ms hd nx last U M cm b bm 0 [None] 1 Ha HM ltac:(lia) ltac:(lia) ltac:(simpl; lia)) as H.
  unfold next_k_nn in H. cbn [forR] in H. destruct (next_dist _ _ _ _ _) as [[t e]|u]; [|done]. cbn [Rbind] in H. cbn [Rsat].
  destruct e as [[b' hd' nx']|]; [|done]. cbn [eget es_hd] in H. destruct (cget hd' t) as [x|] eqn:Ex; [|done]. cbn [Rbind] in H. rewrite aset_cells in H by (simpl; lia).
  cbn [Rbind Rsat] in H. destruct H as (nx2 & co' & a & U' & y & [= -> -> ->] & [= <-] & H1 & H2 & H3 & H4 & H5 & H6 & H7 & H8 & H9 & H10).
  destruct a as [|y' [|]]; try done. injection H9 as ->. exists nx2, y, U'. by splits.
Qed.

Section Divide.
(** Members of the cluster to divide, its place in the store, the store and the
    marks at the start, the centers. *)
Context (ms : list nat) (off : nat) (st0 : list (option nat)) (M0 : list N) (c1 c2 : nat) (bs bm : nat) (cm : N).
Context (Hnd : NoDup ms) (HM0 : Forall (fun x => x < length M0) ms) (Hoff : off + length ms <= length st0).
Context (Hc1 : c1 ∈ ms) (Hc2 : c2 ∈ ms).

Definition others : list nat := filter (fun x => x <> c1 /\ x <> c2) ms.

(** The clusters made so far: [c1] and [a1], [a2] and [c2]; [U] is unassigned. *)
Definition core (i1 i2 : hitem) (st : option (arr nat)) (mk : option (arr N)) (a1 a2 U : list nat) : Prop :=
  i1 = HI (S (length a1)) cm off /\ i2 = HI (S (length a2)) cm (off + length ms - S (length a2)) /\
  a1 ++ a2 ++ U ≡ₚ others /\
  (exists c, st = Some (Arr bs c) /\ length c = length st0 /\ stored c off (c1 :: a1) /\ stored c (off + length ms - S (length a2)) (a2 ++ [c2]) /\
     forall i, ~ (off <= i < off + length ms) -> c !! i = st0 !! i) /\
  (exists M, mk = farr bm M /\ length M = length M0 /\ marked M cm ms U /\ forall x, x ∉ ms -> M !! x = M0 !! x).

Lemma core_sub i1 i2 st mk a1 a2 U : core i1 i2 st mk a1 a2 U -> NoDup U /\ forall x, x ∈ U -> x ∈ ms.
Proof.
  intros (_ & _ & Hp & _). assert (NoDup others) as Ho by by apply NoDup_filter. split.
  - rewrite <- Hp in Ho. apply NoDup_app in Ho as (_ & _ & Ho). by apply NoDup_app in Ho as (_ & _ & ?).
  - intros x Hx. assert (x ∈ others) as H by (rewrite <- Hp; set_solver). apply elem_of_list_filter in H. tauto.
Qed.

Lemma marked_less M U a U' : marked M cm ms U -> U ≡ₚ a ++ U' -> NoDup U -> length M = length M0 -> marked (mark_all M cm a) cm ms U'.
Proof.
  intros HM HU Hn Hl x Hx. destruct (HM x Hx) as (v & Hv & Hle & Hiff). rewrite HU in Hn. apply NoDup_app in Hn as (_ & Hd & _).
  destruct (decide (x ∈ a)) as [Ha|Ha].
  - exists cm. split; [apply mark_all_in; [done|]|]. { rewrite Hl. by eapply Forall_forall in HM0. } split; [lia|]. split; [|done]. intros _. by apply Hd.
  - exists v. rewrite mark_all_out by done. splits; auto. rewrite Hiff, HU, not_elem_of_app. tauto.
Qed.

Lemma picks_bound i1 i2 st mk a1 a2 U a U' : core i1 i2 st mk a1 a2 U -> U ≡ₚ a ++ U' -> Forall (fun x => x < length M0) a.
Proof.
  intros Hc HU. apply core_sub in Hc as [_ Hs]. apply Forall_forall. intros x Hx. eapply Forall_forall in HM0; [exact HM0|]. apply Hs. rewrite HU. set_solver.
Qed.

Lemma core_move1 i1 i2 st mk a1 a2 U a U' bi ci : core i1 i2 st mk a1 a2 U -> U ≡ₚ a ++ U' -> filled ci a -> S (length a1) + S (length a2) + length a <= length ms ->
  Rsat none (move_array1 (length a) (Some (Arr bi ci)) i1 st mk cm) (fun '(i1, st, mk) => core i1 i2 st mk (a1 ++ a) a2 U').
Proof.
  intros Hc HU Hf Hle. pose proof (core_sub _ _ _ _ _ _ _ Hc) as [HnU HsU]. pose proof (picks_bound _ _ _ _ _ _ _ _ _ Hc HU) as Hb.
  destruct Hc as (-> & E2 & Hp & (c & -> & Hlc & Hh1 & Hh2 & Hout) & (M & -> & HlM & HM & HMo)).
  eapply Rsat_mono; [apply (move_array1_sat none _ bi ci a (S (length a1)) cm off bs c bm M cm (c1 :: a1)); auto; rewrite ?HlM; auto; simpl; lia|].
  intros [[i1 st] mk] (-> & -> & c' & -> & Hlc' & Hh' & Hc'). unfold core. rewrite app_length. splits; auto.
  - rewrite <- Hp, HU. rewrite <- app_assoc. by rewrite (Permutation_app_swap_app a2 a).
  - exists c'. splits; auto; [lia| |].
    + eapply stored_same; [exact Hh2|]. intros i Hi. apply Hc'. rewrite app_length in Hi. simpl in Hi. lia.
    + intros i Hi. rewrite Hc' by lia. by apply Hout.
  - exists (mark_all M cm a). rewrite mark_all_length. splits; auto; [by eapply marked_less|]. intros x Hx. rewrite mark_all_out; [by apply HMo|].
    intros Ha. apply Hx, HsU. rewrite HU. set_solver.
Qed.

Lemma core_move2 i1 i2 st mk a1 a2 U a U' bi ci : core i1 i2 st mk a1 a2 U -> U ≡ₚ a ++ U' -> filled ci a -> S (length a1) + S (length a2) + length a <= length ms ->
  Rsat none (move_array2 (length a) (Some (Arr bi ci)) i2 st mk cm) (fun '(i2, st, mk) => core i1 i2 st mk a1 (rev a ++ a2) U').
Proof.
  intros Hc HU Hf Hle. pose proof (core_sub _ _ _ _ _ _ _ Hc) as [HnU HsU]. pose proof (picks_bound _ _ _ _ _ _ _ _ _ Hc HU) as Hb.
  destruct Hc as (E1 & -> & Hp & (c & -> & Hlc & Hh1 & Hh2 & Hout) & (M & -> & HlM & HM & HMo)).
  eapply Rsat_mono; [apply (move_array2_sat none _ bi ci a (S (length a2)) cm _ bs c bm M cm (a2 ++ [c2])); auto; rewrite ?HlM; auto; rewrite ?app_length; simpl; lia|].
  intros [[i2 st] mk] (-> & -> & c' & -> & Hlc' & Hh' & Hc'). unfold core. rewrite app_length, rev_length. 
  replace (off + length ms - S (length a2) - length a) with (off + length ms - S (length a + length a2)) in * by lia. splits; auto.
  - f_equal. lia.
  - rewrite <- Hp, HU. rewrite <- app_assoc. rewrite <- (Permutation_rev a). by rewrite (Permutation_app_swap_app a2 a).
  - exists c'. splits; auto; [lia| | |].
    + eapply stored_same; [exact Hh1|]. intros i Hi. apply Hc'. simpl in Hi. lia.
    + by rewrite <- app_assoc.
    + intros i Hi. rewrite Hc' by lia. by apply Hout.
  - exists (mark_all M cm a). rewrite mark_all_length. splits; auto; [by eapply marked_less|]. intros x Hx. rewrite mark_all_out; [by apply HMo|].
    intros Ha. apply Hx, HsU. rewrite HU. set_solver.
Qed.

Lemma others_length : length ms - 2 <= length others.
Proof.
  unfold others. assert (forall l, NoDup l -> length l - (if decide (c1 ∈ l) then 1 else 0) - (if decide (c2 ∈ l) then 1 else 0) <= length (filter (fun x => x <> c1 /\ x <> c2) l)) as G.
  { clear. induction l as [|x l IH]; intros Hn; [simpl; lia|]. apply NoDup_cons in Hn as [Hx Hn]. specialize (IH Hn). rewrite filter_cons. cbn [length].
    repeat case_decide; simpl; set_unfold; try lia; try tauto. all: assert (x = c1 \/ x = c2) as [->| ->] by (destruct (decide (x = c1)), (decide (x = c2)); tauto); try tauto; try lia. }
  specialize (G ms Hnd). repeat case_decide; lia.
Qed.

Lemma others_distinct : c1 <> c2 -> ms ≡ₚ c1 :: c2 :: others.
Proof.
  intros Hne. apply NoDup_Permutation; [done| |].
  - apply NoDup_cons. unfold others. split; [intros H; apply elem_of_cons in H as [H|H%elem_of_list_filter]; tauto|]. apply NoDup_cons.
    split; [intros H%elem_of_list_filter; tauto|]. by apply NoDup_filter.
  - intros x. rewrite !elem_of_cons. unfold others. rewrite elem_of_list_filter. destruct (decide (x = c1)), (decide (x = c2)); subst; tauto.
Qed.

Context (W : Prop) (D1 D2 : nat -> double) (hd1 hd2 : list (option (nat * double))) (b1 b2 bp1 bp2 ln lp : nat).

Definition asg (b : bst) (a1 a2 U : list nat) : Prop :=
  core (b_i1 b) (b_i2 b) (b_st b) (b_mk b) a1 a2 U /\
  (exists nx, b_e1 b = Some (ES b1 hd1 nx) /\ length nx = ln /\ avail W D1 ms hd1 nx (b_l1 b) U) /\
  (exists nx, b_e2 b = Some (ES b2 hd2 nx) /\ length nx = ln /\ avail W D2 ms hd2 nx (b_l2 b) U) /\
  (exists c, b_p1 b = Some (Arr bp1 c) /\ length c = lp) /\
  (exists c, b_p2 b = Some (Arr bp2 c) /\ length c = lp).

Lemma core_len i1 i2 st mk a1 a2 U : core i1 i2 st mk a1 a2 U -> length ms <= length a1 + length a2 + length U + 2.
Proof. intros (_ & _ & Hp & _). apply Permutation_length in Hp. rewrite !app_length in Hp. pose proof others_length. lia. Qed.

Lemma first_assign_sat k1 b U : asg b [] [] U -> 0 < k1 -> 2 * k1 + 2 <= length ms -> k1 <= lp ->
  Rsat none (first_assign k1 cm b) (fun b' => exists a1 a2 U', asg b' a1 a2 U' /\ length a1 = k1 /\ length a2 = k1 /\ (W -> first_parts k1 D1 D2 U a1 (rev a2) U')).
Proof.
  intros (Hc & (nx1 & E1 & Hn1 & Ha1) & (nx2 & E2 & Hn2 & Ha2) & (p1 & Ep1 & Hp1) & (p2 & Ep2 & Hp2)) Hk Hms Hlp. unfold first_assign.
  pose proof (core_len _ _ _ _ _ _ _ Hc) as HlU. simpl in HlU. pose proof (core_sub _ _ _ _ _ _ _ Hc) as [HnU _].
  pose proof Hc as (_ & _ & _ & _ & (M & EM & HlM & HM & _)). rewrite E1, E2, Ep1, Ep2, EM.
  eapply Rsat_bind_mono; [apply (next_k_nn_sat W D1 ms hd1 nx1 _ U M); auto; lia|]. intros [[t1 e1] q1] (nx1' & p1' & a & U1 & y1 & -> & -> & Hl1 & Hlp1 & Hf1 & Hka & HU1 & Hv1 & Hv1' & Hy1 & La1 & W1).
  eapply Rsat_bind_mono; [apply (next_k_nn_sat W D2 ms hd2 nx2 _ U M); auto; lia|]. intros [[t2 e2] q2] (nx2' & p2' & a' & U2 & y2 & -> & -> & Hl2 & Hlp2 & Hf2 & Hka' & HU2 & Hv2 & Hv2' & Hy2 & La2 & W2).
  cbn [eget es_hd]. rewrite (cget_ok _ _ _ Hy1), (cget_ok _ _ _ Hy2). cbn [Rbind snd]. rewrite <- EM. destruct (d_ge (D1 y1) (D2 y2)) eqn:Ed.
  - rewrite <- Hka at 1. eapply Rsat_bind_mono; [eapply (core_move1 _ _ _ _ _ _ U a U1); [eassumption..|simpl; lia]|]. intros [[i1 st] mk] Hc'.
    pose proof Hc' as (_ & _ & _ & _ & (M' & -> & HlM' & HM' & _)). pose proof (core_len _ _ _ _ _ _ _ Hc') as HlU'. simpl in HlU'. pose proof (core_sub _ _ _ _ _ _ _ Hc') as [HnU' _].
    eapply Rsat_bind_mono; [apply (next_k_nn_sat W D2 ms hd2 nx2' _ U1 M'); auto; [by eapply avail_less|lia|lia]|].
    intros [[l2 e2] q2] (nx3 & p3 & a3 & U3 & y3 & -> & -> & Hl3 & Hlp3 & Hf3 & Hka3 & HU3 & Hv3 & Hv3' & Hy3 & La3 & W3).
    rewrite <- Hka3 at 1. eapply Rsat_bind_mono; [eapply (core_move2 _ _ _ _ _ _ U1 a3 U3); [eassumption..|simpl; lia]|]. intros [[i2 st2] mk2] Hcc. cbn [Rsat].
    exists a, (rev a3 ++ []), U3. rewrite app_length, rev_length. simpl. splits; auto; [|lia|].
    2: { intros w. rewrite app_nil_r, rev_involutive. eapply (fp_one _ _ _ _ a U1 a' U2); eauto. unfold reach. by rewrite La1, La2. }
    rewrite app_nil_r in *. split; cbn; [done|]. splits; eauto.
    + exists nx1'. splits; auto; [lia|]. by eapply avail_less.
    + exists nx3. splits; auto; lia.
    + exists p1'. split; auto; lia.
    + exists p3. split; auto; lia.
  - rewrite <- Hka' at 1. eapply Rsat_bind_mono; [eapply (core_move2 _ _ _ _ _ _ U a' U2); [eassumption..|simpl; lia]|]. intros [[i2 st] mk] Hc'.
    pose proof Hc' as (_ & _ & _ & _ & (M' & -> & HlM' & HM' & _)). pose proof (core_len _ _ _ _ _ _ _ Hc') as HlU'. rewrite app_length, rev_length in HlU'. simpl in HlU'.
    pose proof (core_sub _ _ _ _ _ _ _ Hc') as [HnU' _].
    eapply Rsat_bind_mono; [apply (next_k_nn_sat W D1 ms hd1 nx1' _ U2 M'); auto; [by eapply avail_less|lia|lia]|].
    intros [[l1 e1] q1] (nx3 & p3 & a3 & U3 & y3 & -> & -> & Hl3 & Hlp3 & Hf3 & Hka3 & HU3 & Hv3 & Hv3' & Hy3 & La3 & W3).
    rewrite <- Hka3 at 1. eapply Rsat_bind_mono; [eapply (core_move1 _ _ _ _ _ _ U2 a3 U3); [eassumption..|rewrite app_length, rev_length; simpl; lia]|]. intros [[i1 st2] mk2] Hcc. cbn [Rsat].
    exists a3, (rev a' ++ []), U3. rewrite app_length, rev_length. simpl. splits; auto; [|lia|].
    2: { intros w. rewrite app_nil_r, rev_involutive. eapply (fp_two _ _ _ _ a3 U1 a U2); eauto. unfold reach. by rewrite La1, La2. }
    split; cbn; [done|]. splits; eauto.
    + exists nx3. splits; auto; lia.
    + exists nx2'. splits; auto; [lia|]. by eapply avail_less.
    + exists p3. split; auto; lia.
    + exists p2'. split; auto; lia.
Qed.

(** All members are at distance zero from both centers. *)
Definition coincide : Prop := forall x, x ∈ ms -> D1 x = d_zero /\ D2 x = d_zero.

Definition spare (a1 a2 : list nat) : nat := length ms - (length a1 + length a2 + 2).

Lemma batch_step_sat num nb b a1 a2 U : asg b a1 a2 U -> 0 < nb -> nb <= lp -> length a1 + length a2 + 2 + num = length ms ->
  Rsat none (batch_step cm (num, nb, b)) (fun r => match r with
    | inl (num', nb', b') => num' < num /\ 0 < nb' /\ nb' <= lp /\ exists a1' a2' U', asg b' a1' a2' U' /\ length a1' + length a2' + 2 + num' = length ms /\
        length a1 <= length a1' /\ length a2 <= length a2' /\ (coincide -> length a2' = length a2) /\ (nb' = nb \/ num' = 0) /\
        (W -> forall r1 r2, rest_parts nb D1 D2 num' a1' (rev a2') U' r1 r2 -> rest_parts nb D1 D2 num a1 (rev a2) U r1 r2)
    | inr b' => num = 0 /\ b' = b
    end).
Proof.
  intros (Hc & (nx1 & E1 & Hn1 & Ha1) & (nx2 & E2 & Hn2 & Ha2) & (p1 & Ep1 & Hp1) & (p2 & Ep2 & Hp2)) Hnb Hlp Hnum. unfold batch_step. case_decide as Hd; [|cbn [Rsat]; split; [lia|done]].
  set (n' := if decide (num < nb) then num else nb). assert (0 < n' <= num /\ n' <= lp /\ n' = Nat.min nb num /\ (n' = nb \/ num - n' = 0)) as Hn' by (unfold n'; case_decide; lia). clearbody n'.
  pose proof (core_len _ _ _ _ _ _ _ Hc) as HlU. pose proof (core_sub _ _ _ _ _ _ _ Hc) as [HnU HsU].
  pose proof Hc as (_ & _ & _ & _ & (M & EM & HlM & HM & _)). rewrite E1, E2, Ep1, Ep2, EM.
  eapply Rsat_bind_mono; [apply (next_k_nn_sat W D1 ms hd1 nx1 _ U M); auto; lia|]. intros [[t1 e1] q1] (nx1' & p1' & a & U1 & y1 & -> & -> & Hl1 & Hlp1 & Hf1 & Hka & HU1 & Hv1 & Hv1' & Hy1 & La1 & W1).
  eapply Rsat_bind_mono; [apply (next_k_nn_sat W D2 ms hd2 nx2 _ U M); auto; lia|]. intros [[t2 e2] q2] (nx2' & p2' & a' & U2 & y2 & -> & -> & Hl2 & Hlp2 & Hf2 & Hka' & HU2 & Hv2 & Hv2' & Hy2 & La2 & W2).
  cbn [eget es_hd]. rewrite (cget_ok _ _ _ Hy1), (cget_ok _ _ _ Hy2). cbn [Rbind snd]. rewrite <- EM. destruct (d_le (D1 y1) (D2 y2)) eqn:Ed.
  - rewrite <- Hka at 1. eapply Rsat_bind_mono; [eapply (core_move1 _ _ _ _ _ _ U a U1); [eassumption..|simpl; lia]|]. intros [[i1 st] mk] Hc'. cbn [Rsat]. splits; try lia.
    exists (a1 ++ a), a2, U1. rewrite app_length. splits; try lia; auto.
    2: { intros w r1 r2 Hr. assert (num - n' = num - Nat.min nb num) as Hnn by lia. rewrite Hnn in Hr. eapply (rp_one _ _ _ _ _ _ _ a U1 a' U2); eauto; try lia. unfold reach. by rewrite La1, La2. }
    split; cbn; [done|]. splits.
    + exists nx1'. splits; auto; lia.
    + exists nx2'. splits; auto; [lia|]. by eapply avail_less.
    + exists p1'. split; auto; lia.
    + exists p2'. split; auto; lia.
  - rewrite <- Hka' at 1. eapply Rsat_bind_mono; [eapply (core_move2 _ _ _ _ _ _ U a' U2); [eassumption..|simpl; lia]|]. intros [[i2 st] mk] Hc'. cbn [Rsat]. splits; try lia.
    exists a1, (rev a' ++ a2), U2. rewrite app_length, rev_length. splits; try lia; auto.
    3: { intros w r1 r2 Hr. assert (num - n' = num - Nat.min nb num) as Hnn by lia. rewrite Hnn, rev_app_distr, rev_involutive in Hr. eapply (rp_two _ _ _ _ _ _ _ a U1 a' U2); eauto; try lia. unfold reach. by rewrite La1, La2. }
    + split; cbn; [done|]. splits.
      * exists nx1'. splits; auto; [lia|]. by eapply avail_less.
      * exists nx2'. splits; auto; lia.
      * exists p1'. split; auto; lia.
      * exists p2'. split; auto; lia.
    + intros Hz. apply last_Some_elem_of in La1, La2. assert (y1 ∈ ms) as Hz1%Hz by (apply HsU; rewrite HU1; set_solver). assert (y2 ∈ ms) as Hz2%Hz by (apply HsU; rewrite HU2; set_solver).
      destruct Hz1 as [Hz1 _], Hz2 as [_ Hz2]. by rewrite Hz1, Hz2 in Ed.
Qed.

Lemma single_step_sat b a1 a2 U : asg b a1 a2 U -> length a1 + length a2 + 2 < length ms ->
  Rsat none (single_step cm b) (fun b' => exists a1' a2' U', asg b' a1' a2' U' /\ length a1' + length a2' = S (length a1 + length a2) /\
        length a1 <= length a1' /\ length a2 <= length a2' /\ (coincide -> length a2' = length a2) /\
        (W -> forall num r1 r2, rest_parts 1 D1 D2 num a1' (rev a2') U' r1 r2 -> rest_parts 1 D1 D2 (S num) a1 (rev a2) U r1 r2)).
Proof.
  intros (Hc & (nx1 & E1 & Hn1 & Ha1) & (nx2 & E2 & Hn2 & Ha2) & (p1 & Ep1 & Hp1) & (p2 & Ep2 & Hp2)) Hnum. unfold single_step.
  pose proof (core_len _ _ _ _ _ _ _ Hc) as HlU. pose proof (core_sub _ _ _ _ _ _ _ Hc) as [HnU HsU]. assert (U <> []) as HU0 by (intros ->; simpl in *; lia).
  pose proof Hc as (_ & _ & _ & _ & (M & EM & HlM & HM & _)). rewrite E1, E2, EM.
  eapply Rsat_bind_mono; [apply (next_dist_avail W D1 ms hd1 nx1 _ U M); auto|]. intros [t1 e1] (nx1' & y1 & U1 & -> & Hl1 & HU1 & Hv1 & Hv1' & Hy1 & W1).
  eapply Rsat_bind_mono; [apply (next_dist_avail W D2 ms hd2 nx2 _ U M); auto|]. intros [t2 e2] (nx2' & y2 & U2 & -> & Hl2 & HU2 & Hv2 & Hv2' & Hy2 & W2).
  cbn [eget es_hd]. rewrite (cget_ok _ _ _ Hy1), (cget_ok _ _ _ Hy2). cbn [Rbind snd fst]. rewrite <- EM. destruct (d_le (D1 y1) (D2 y2)) eqn:Ed.
  - eapply Rsat_bind_mono.
    { pose proof (core_move1 _ _ _ _ _ _ U [y1] U1 0 [Some y1] Hc HU1 ltac:(by exists []) ltac:(simpl; lia)) as H. unfold move_array1 in H. cbn [length forR] in H.
      rewrite (aget_farr _ [y1] 0 y1 eq_refl) in H. cbn [Rbind] in H. destruct (move_point1 _ _ _ _ _) as [[[i1 st] mk]|]; [|done]. cbn [Rbind Rsat] in H. cbn [Rsat]. exact H. }
    intros [[i1 st] mk] Hc'. cbn [Rsat]. exists (a1 ++ [y1]), a2, U1. rewrite app_length. simpl. splits; try lia; auto.
    2: { intros w num r1 r2 Hr. eapply (rp_one _ _ _ _ _ _ _ [y1] U1 [y2] U2); eauto; try (simpl; lia). by rewrite Nat.min_l, Nat.sub_1_r by lia. }
    split; cbn; [done|]. splits.
    + exists nx1'. splits; auto; lia.
    + exists nx2'. splits; auto; [lia|]. by eapply avail_less.
    + by exists p1.
    + by exists p2.
  - eapply Rsat_bind_mono.
    { pose proof (core_move2 _ _ _ _ _ _ U [y2] U2 0 [Some y2] Hc HU2 ltac:(by exists []) ltac:(simpl; lia)) as H. unfold move_array2 in H. cbn [length forR] in H.
      rewrite (aget_farr _ [y2] 0 y2 eq_refl) in H. cbn [Rbind] in H. destruct (move_point2 _ _ _ _ _) as [[[i2 st] mk]|]; [|done]. cbn [Rbind Rsat] in H. cbn [Rsat]. exact H. }
    intros [[i2 st] mk] Hc'. cbn [Rsat]. exists a1, ([y2] ++ a2), U2. simpl. splits; try lia; auto.
    3: { intros w num r1 r2 Hr. eapply (rp_two _ _ _ _ _ _ _ [y1] U1 [y2] U2); eauto; try (simpl; lia). by rewrite Nat.min_l, Nat.sub_1_r by lia. }
    + split; cbn; [done|]. splits.
      * exists nx1'. splits; auto; [lia|]. by eapply avail_less.
      * exists nx2'. splits; auto; lia.
      * by exists p1.
      * by exists p2.
    + intros Hz. assert (y1 ∈ ms) as Hz1%Hz by (apply HsU; rewrite HU1; set_solver). assert (y2 ∈ ms) as Hz2%Hz by (apply HsU; rewrite HU2; set_solver).
      destruct Hz1 as [Hz1 _], Hz2 as [_ Hz2]. by rewrite Hz1, Hz2 in Ed.
Qed.
End Divide.

(** ** A whole division *)

(** Marks of the members of a cluster do not exceed the cluster's marker. *)
Definition marks_le (M : list N) (m : N) (ms : list nat) : Prop := forall x, x ∈ ms -> exists v, M !! x = Some v /\ (v <= m)%N.

Lemma next_marker_sat cfg m off bs c bm M (ms : list nat) : stored c off ms -> marks_le M m ms -> (m <= fast16_max cfg)%N -> (1 <= fast16_max cfg)%N ->
  Rsat none (next_marker cfg (HI (length ms) m off) (Some (Arr bs c)) (farr bm M)) (fun '(it, mk) => exists cm M',
    it = HI (length ms) cm off /\ mk = farr bm M' /\ length M' = length M /\ (cm <= fast16_max cfg)%N /\
    (forall x, x ∈ ms -> exists v, M' !! x = Some v /\ (v < cm)%N) /\ forall x, x ∉ ms -> M' !! x = M !! x).
Proof.
  intros Hh HM Hm HF. unfold next_marker. cbn [hi_marker hi_size hi_mem]. case_decide as Hd.
  - eapply Rsat_bind_mono with (Q := fun '(m, mk) => m = 0%N /\ exists M', mk = farr bm M' /\ length M' = length M /\ (forall x, x ∈ ms -> M' !! x = Some 0%N) /\ forall x, x ∉ ms -> M' !! x = M !! x).
    + eapply Rsat_bind_mono with (Q := fun mk => mk = farr bm (mark_all M 0 ms)).
      * apply (forR_sat0 none (fun j mk => mk = farr bm (mark_all M 0 (take j ms)))); [done| |intros mk; by rewrite take_ge by lia].
        intros j mk Hj ->. destruct (lookup_lt_is_Some_2 ms j) as [x Hx]; [done|]. rewrite (stored_get _ _ _ _ _ _ Hh Hx). cbn [Rbind].
        destruct (HM x) as (v & Hv & _); [by eapply elem_of_list_lookup_2|]. rewrite aset_farr by (rewrite mark_all_length; by eapply lookup_lt_Some).
        cbn [Rsat]. by rewrite (take_S_r ms j x Hx), mark_all_snoc.
      * intros mk ->. cbn [Rsat]. split; [done|]. exists (mark_all M 0 ms). rewrite mark_all_length. splits; auto.
        -- intros x Hx. apply mark_all_in; [done|]. destruct (HM x Hx) as (v & Hv & _). by eapply lookup_lt_Some.
        -- intros x Hx. by apply mark_all_out.
    + intros [m' mk] (-> & M' & -> & Hl & H1 & H2). cbn [Rsat]. exists 1%N, M'. splits; auto. intros x Hx. exists 0%N. split; [by apply H1|lia].
  - cbn [Rbind Rsat]. exists (m + 1)%N, M. splits; auto; [lia|]. intros x Hx. destruct (HM x Hx) as (v & Hv & Hle). exists v. split; [done|lia].
Qed.

(** Blocks and sizes of the arrays. *)
Record hshape := HShape { v_p1 : nat; v_p2 : nat; v_d : nat; v_m : nat; v_e1 : nat; v_e2 : nat; v_s : nat; v_lp : nat; v_ld : nat; v_big : nat }.

Definition hok (v : hshape) (h : hst) (M : list N) (c : list (option nat)) : Prop :=
  (exists a, h_p1 h = Some (Arr (v_p1 v) a) /\ length a = v_lp v) /\
  (exists a, h_p2 h = Some (Arr (v_p2 v) a) /\ length a = v_lp v) /\
  (exists a, h_ds h = Some (Arr (v_d v) a) /\ length a = v_ld v) /\
  h_mk h = farr (v_m v) M /\
  (exists hd nx, h_e1 h = Some (ES (v_e1 v) hd nx) /\ length hd = v_big v /\ length nx = v_big v) /\
  (exists hd nx, h_e2 h = Some (ES (v_e2 v) hd nx) /\ length hd = v_big v /\ length nx = v_big v) /\
  h_st h = Some (Arr (v_s v) c).

(** The list of edges from the center [c]. *)
Definition edges_from (W : Prop) (D : nat -> double) (ms : list nat) (c : nat) (e : option estore) : Prop :=
  exists b hd nx l, e = Some (ES b hd nx) /\ chain hd nx 0 l /\ heads l ≡ₚ filter (fun x => x <> c) ms /\ (forall p, p ∈ l -> p.2.2 = D p.2.1) /\
    (W -> StronglySorted (ord D) (heads l)).

Lemma edges_avail W D ms c e U b hd nx : edges_from W D ms c e -> e = Some (ES b hd nx) -> NoDup U -> (forall x, x ∈ U -> x ∈ ms /\ x <> c) -> NoDup ms -> avail W D ms hd nx 0 U.
Proof.
  intros (b' & hd' & nx' & l & -> & Hc & Hp & Hd & Hw) [= -> -> ->] HU Hs Hms. exists l. splits; auto.
  - rewrite Hp. apply NoDup_Permutation; [by apply NoDup_filter, NoDup_filter|done|]. intros x. rewrite !elem_of_list_filter. specialize (Hs x). tauto.
  - intros p Hpl. split; [|by apply Hd]. assert (p.2.1 ∈ filter (fun x => x <> c) ms) as H; [|apply elem_of_list_filter in H; tauto].
    rewrite <- Hp. apply elem_of_list_fmap. eauto.
Qed.

Lemma divide_sat W cfg v h M c ms m off c1 c2 D1 D2 k batch :
  hok v h M c -> NoDup ms -> Forall (fun x => x < length M) ms -> stored c off ms -> off + length ms <= length c ->
  marks_le M m ms -> (m <= fast16_max cfg)%N -> (1 <= fast16_max cfg)%N -> c1 ∈ ms -> c2 ∈ ms ->
  edges_from W D1 ms c1 (h_e1 h) -> edges_from W D2 ms c2 (h_e2 h) ->
  2 <= k -> 2 * k <= length ms -> (N.of_nat (2 * k) <= u32max)%N -> k <= v_lp v ->
  Rsat none (divide cfg (HI (length ms) m off) c1 c2 k batch h) (fun '(i1, i2, h') => exists ms1 ms2 cm M' c',
    i1 = HI (length ms1) cm off /\ i2 = HI (length ms2) cm (off + length ms1) /\ length ms1 + length ms2 = length ms /\
    k <= length ms1 /\ k <= length ms2 /\ NoDup ms1 /\ NoDup ms2 /\ (forall x, x ∈ ms1 -> x ∈ ms) /\ (forall x, x ∈ ms2 -> x ∈ ms) /\
    (c1 <> c2 -> ms1 ++ ms2 ≡ₚ ms) /\ (c1 = c2 -> (forall x, x ∈ ms -> D1 x = d_zero /\ D2 x = d_zero) -> length ms2 = k) /\
    hok v h' M' c' /\ length c' = length c /\ stored c' off ms1 /\ stored c' (off + length ms1) ms2 /\
    (forall i, ~ (off <= i < off + length ms) -> c' !! i = c !! i) /\
    length M' = length M /\ (cm <= fast16_max cfg)%N /\ marks_le M' cm ms /\ (forall x, x ∉ ms -> M' !! x = M !! x) /\
    (W -> divided k (if batch then k else 1) D1 D2 ms c1 c2 ms1 ms2)).
Proof.
  intros ((p1 & Ep1 & Hp1) & (p2 & Ep2 & Hp2) & Hds & Emk & (hd1 & nx1 & Ee1 & Hh1 & Hn1) & (hd2 & nx2 & Ee2 & Hh2 & Hn2) & Est) Hnd HM Hho Hoff Hml Hm HF Hc1 Hc2 He1 He2 Hk Hsz Hku Hlp.
  unfold divide. cbn [hi_size]. rewrite Est, Emk. eapply Rsat_bind_mono; [by apply next_marker_sat|]. intros [it mk] (cm & M1 & -> & -> & HlM1 & Hcm & Hlt & HM1). cbn [hi_marker hi_mem].
  assert (forall x, x ∈ ms -> x < length M1) as HM1'. { intros x Hx. rewrite HlM1. by eapply Forall_forall in HM. }
  eapply Rsat_bind_mono; [apply (move_point1_sat none c1 0 cm off _ c _ M1 cm []); auto; [apply stored_nil|lia]|].
  intros [[i1 st] mk] (-> & -> & ca & -> & Hlca & Hhca & Hca).
  eapply Rsat_bind_mono; [apply (move_point2_sat none c2 0 cm (off + length ms) _ ca _ _ cm []); auto; [apply stored_nil|lia|lia|rewrite insert_length; by apply HM1']|].
  intros [[i2 st] mk] (-> & -> & cb & -> & Hlcb & Hhcb & Hcb).
  set (U := filter (fun x => x <> c1 /\ x <> c2) ms).
  assert (asg ms off c M c1 c2 (v_s v) (v_m v) cm W D1 D2 hd1 hd2 (v_e1 v) (v_e2 v) (v_p1 v) (v_p2 v) (v_big v) (v_lp v)
    (BSt (HI (0 + 1) cm off) (HI (0 + 1) cm (off + length ms - 1)) 0 0 (h_p1 h) (h_p2 h) (h_e1 h) (h_e2 h) (Some (Arr (v_s v) cb)) (farr (v_m v) (<[c2:=cm]> (<[c1:=cm]> M1)))) [] [] U) as Hasg.
  { assert (NoDup U) as HnU by by apply NoDup_filter.
    assert (forall x, x ∈ U -> x ∈ ms /\ x <> c1 /\ x <> c2) as HsU. { intros x Hx. apply elem_of_list_filter in Hx. tauto. }
    split; cbn [b_i1 b_i2 b_st b_mk]. 1: split; [done|]; split; [done|]; split; [done|]; split.
    - exists cb. splits; auto; [lia| |intros i Hi; rewrite Hcb by lia; apply Hca; lia]. eapply stored_same; [exact Hhca|]. intros i Hi. apply Hcb. simpl in Hi. lia.
    - eexists. splits; [done|by rewrite !insert_length| |].
      + intros x Hx. pose proof (HM1' x Hx) as Hxl. destruct (Hlt x Hx) as (u & Hu & Hult). destruct (decide (x = c2)) as [->|Hn2']; [|destruct (decide (x = c1)) as [->|Hn1']].
        * exists cm. rewrite list_lookup_insert by (by rewrite insert_length). splits; [done|lia|]. split; [|done]. intros _ H%HsU. tauto.
        * exists cm. rewrite list_lookup_insert_ne, list_lookup_insert by done. splits; [done|lia|]. split; [|done]. intros _ H%HsU. tauto.
        * exists u. rewrite !list_lookup_insert_ne by done. splits; [done|lia|]. split; [lia|]. intros Hnu. destruct Hnu. apply elem_of_list_filter. tauto.
      + intros x Hx. rewrite !list_lookup_insert_ne by (intros <-; done). by apply HM1.
    - cbn. splits; eauto.
      + exists nx1. splits; auto. eapply edges_avail; eauto. intros x Hx%HsU. tauto.
      + exists nx2. splits; auto. eapply edges_avail; eauto. intros x Hx%HsU. tauto. }
  eapply Rsat_bind_mono; [eapply first_assign_sat; [exact Hnd|exact HM|exact Hoff|exact Hc1|exact Hc2|exact Hasg|lia|lia|lia]|].
  intros b (a1 & a2 & U1 & Hb & Hl1 & Hl2 & Hfp). rewrite wrapN_small by done.
  revert Hb Hl1 Hl2 Hfp. rename a1 into a01, a2 into a02, U1 into U01. intros Hb Hl1 Hl2 Hfp.
  eapply Rsat_bind_mono with (Q := fun b => exists a1 a2 U, asg ms off c M c1 c2 (v_s v) (v_m v) cm W D1 D2 hd1 hd2 (v_e1 v) (v_e2 v) (v_p1 v) (v_p2 v) (v_big v) (v_lp v) b a1 a2 U /\
    length a1 + length a2 + 2 = length ms /\ k <= S (length a1) /\ k <= S (length a2) /\ ((forall x, x ∈ ms -> D1 x = d_zero /\ D2 x = d_zero) -> S (length a2) = k) /\ (W -> rest_parts (if batch then k else 1) D1 D2 (length ms - 2 * k) a01 (rev a02) U01 a1 (rev a2))).
  { destruct batch.
    - eapply Rsat_bind_mono.
      + apply (loopR_sat none (fun j '(num, nb, b) => 0 < nb /\ nb <= v_lp v /\ num + j <= length ms - 2 * k /\
          exists a1 a2 U, asg ms off c M c1 c2 (v_s v) (v_m v) cm W D1 D2 hd1 hd2 (v_e1 v) (v_e2 v) (v_p1 v) (v_p2 v) (v_big v) (v_lp v) b a1 a2 U /\
          length a1 + length a2 + 2 + num = length ms /\ k <= S (length a1) /\ k <= S (length a2) /\ ((forall x, x ∈ ms -> D1 x = d_zero /\ D2 x = d_zero) -> S (length a2) = k) /\ (nb = k \/ num = 0) /\
          (W -> forall r1 r2, rest_parts k D1 D2 num a1 (rev a2) U r1 r2 -> rest_parts k D1 D2 (length ms - 2 * k) a01 (rev a02) U01 r1 r2))
         (fun b => exists a1 a2 U, asg ms off c M c1 c2 (v_s v) (v_m v) cm W D1 D2 hd1 hd2 (v_e1 v) (v_e2 v) (v_p1 v) (v_p2 v) (v_big v) (v_lp v) b a1 a2 U /\
          length a1 + length a2 + 2 = length ms /\ k <= S (length a1) /\ k <= S (length a2) /\ ((forall x, x ∈ ms -> D1 x = d_zero /\ D2 x = d_zero) -> S (length a2) = k) /\ (W -> rest_parts k D1 D2 (length ms - 2 * k) a01 (rev a02) U01 a1 (rev a2)))).
        * splits; try lia. exists a01, a02, U01. splits; auto; try lia; tauto.
        * intros j [[num nb] b'] Hj (Q1 & Q2 & Q3 & a1' & a2' & U' & Q4 & Q5 & Q6 & Q7 & Q8 & Q9 & Q10).
          eapply Rsat_mono; [eapply batch_step_sat; [exact Hnd|exact HM|exact Hoff|exact Hc1|exact Hc2|exact Q4|lia|lia|lia]|]. intros [[[num' nb'] b2]|b2].
          -- intros (R1 & R2 & R3 & a1'' & a2'' & U'' & R4 & R5 & R6 & R7 & R8 & R9 & R10). splits; auto; try lia. exists a1'', a2'', U''. splits; auto; try lia.
             ++ intros Hz. rewrite (R8 Hz). by apply Q8.
             ++ intros w r1 r2 Hr. apply (Q10 w). destruct Q9 as [->| ->]; [|lia]. by apply (R10 w).
          -- intros [-> ->]. exists a1', a2', U'. splits; auto; try lia. intros w. apply (Q10 w). constructor.
      + intros [[[num nb] b']|b']; cbn [Rsat]; [|done]. intros (_ & _ & Hn & _). lia.
    - apply (forR_sat0 none (fun j b => exists a1 a2 U, asg ms off c M c1 c2 (v_s v) (v_m v) cm W D1 D2 hd1 hd2 (v_e1 v) (v_e2 v) (v_p1 v) (v_p2 v) (v_big v) (v_lp v) b a1 a2 U /\
          length a1 + length a2 = 2 * k - 2 + j /\ k <= S (length a1) /\ k <= S (length a2) /\ ((forall x, x ∈ ms -> D1 x = d_zero /\ D2 x = d_zero) -> S (length a2) = k) /\
          (W -> forall r1 r2, rest_parts 1 D1 D2 (length ms - 2 * k - j) a1 (rev a2) U r1 r2 -> rest_parts 1 D1 D2 (length ms - 2 * k) a01 (rev a02) U01 r1 r2))).
      + exists a01, a02, U01. splits; auto; try lia. by rewrite Nat.sub_0_r.
      + intros j b' Hj (a1' & a2' & U' & Q4 & Q5 & Q6 & Q7 & Q8 & Q9). eapply Rsat_mono; [eapply single_step_sat; [exact Hnd|exact HM|exact Hoff|exact Hc1|exact Hc2|exact Q4|lia]|].
        intros b2 (a1'' & a2'' & U'' & R4 & R5 & R6 & R7 & R8 & R9). exists a1'', a2'', U''. splits; auto; try lia.
        * intros Hz. rewrite (R8 Hz). by apply Q8.
        * intros w r1 r2 Hr. apply (Q9 w). replace (length ms - 2 * k - j) with (S (length ms - 2 * k - S j)) by lia. by apply (R9 w).
      + intros b' (a1' & a2' & U' & Q4 & Q5 & Q6 & Q7 & Q8 & Q9). exists a1', a2', U'. splits; auto; try lia. intros w. apply (Q9 w). rewrite Nat.sub_diag. constructor. }
  clear b Hb Hl1 Hl2 Hasg. intros b (a1 & a2 & U1 & (Hcore & (nx1' & Eb1 & Hb1 & _) & (nx2' & Eb2 & Hb2 & _) & Hbp1 & Hbp2) & Hlen & Hk1 & Hk2 & Hz & Hrp). cbn [Rsat].
  destruct Hcore as (E1 & E2 & Hperm & (c' & Ec' & Hlc' & Hhd1 & Hhd2 & Hout) & (M' & EM' & HlM' & HM' & HMo)).
  assert (NoDup (a1 ++ a2 ++ U1)) as Hnda. { rewrite Hperm. by apply NoDup_filter. }
  assert (forall x, x ∈ a1 \/ x ∈ a2 -> x ∈ ms /\ x <> c1 /\ x <> c2) as Hsub.
  { intros x Hx. assert (x ∈ others ms c1 c2) as H by (rewrite <- Hperm; set_solver). apply elem_of_list_filter in H. tauto. }
  exists (c1 :: a1), (a2 ++ [c2]), cm, M', c'. rewrite app_length. simpl length. replace (off + length ms - S (length a2)) with (off + S (length a1)) in * by lia. splits; auto; try lia.
  - rewrite E2. f_equal. lia.
  - apply NoDup_cons. split; [|by apply NoDup_app in Hnda as (? & _ & _)]. intros H. destruct (Hsub c1); tauto.
  - apply NoDup_app in Hnda as (_ & _ & Hnda). apply NoDup_app in Hnda as (Hnda & _ & _). apply NoDup_app. splits; [done| |apply NoDup_singleton].
    intros x Hx Hx2. apply elem_of_list_singleton in Hx2 as ->. destruct (Hsub c2); tauto.
  - intros x Hx. apply elem_of_cons in Hx as [->|Hx]; [done|]. apply Hsub. by left.
  - intros x Hx. apply elem_of_app in Hx as [Hx|Hx]; [apply Hsub; by right|]. by apply elem_of_list_singleton in Hx as ->.
  - intros Hne. rewrite (others_distinct ms c1 c2 Hnd Hc1 Hc2 Hne). rewrite <- Hperm.
    assert (U1 = []) as ->. { apply Permutation_length in Hperm. pose proof (others_distinct ms c1 c2 Hnd Hc1 Hc2 Hne) as Ho%Permutation_length. rewrite !app_length in Hperm. simpl in Ho. destruct U1; [done|simpl in *; lia]. }
    rewrite app_nil_r. simpl. constructor. rewrite (assoc_L (++)). by rewrite <- Permutation_cons_append.
  - intros _ Hzz. specialize (Hz Hzz). lia.
  - split; cbn; [done|]. splits; auto.
    + exists hd1, nx1'. splits; auto.
    + exists hd2, nx2'. splits; auto.
  - intros x Hx. destruct (HM' x Hx) as (u & ? & ? & _). eauto.
  - intros w. exists a01, (rev a02), U01, a1, (rev a2). splits; auto. by rewrite rev_involutive.
Qed.
