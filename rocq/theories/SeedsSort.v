(** The bucket sort of src/nng_findseeds.c and its updates. *)

From Coq Require Import Strings.String.
From stdpp Require Import prelude list.
From Coq Require Import NArith ZArith.
From Verif Require Import Base World Mem Digraph DigraphRep DigraphUnion GraphSpec Arrays SeedSpec Seeds.
Open Scope string_scope. Open Scope list_scope. Open Scope nat_scope.

(** ** Counting below a bound *)

Fixpoint nb (P : nat -> bool) (n : nat) : nat :=
  match n with 0 => 0 | S n' => nb P n' + (if P n' then 1 else 0) end.

Lemma nb_ext P Q n : (forall x, x < n -> P x = Q x) -> nb P n = nb Q n.
Proof. induction n as [|n IH]; intros H; simpl; [done|]. rewrite IH, H by (intros; (apply H || idtac); lia). done. Qed.

Lemma nb_le_n P n : nb P n <= n.
Proof. induction n; simpl; [lia|]. destruct (P n); lia. Qed.

Lemma nb_le P Q n : (forall x, x < n -> P x = true -> Q x = true) -> nb P n <= nb Q n.
Proof.
  induction n as [|n IH]; intros H; simpl; [lia|].
  specialize (IH (fun x Hx => H x (Nat.lt_lt_succ_r _ _ Hx))). specialize (H n ltac:(lia)).
  destruct (P n); [rewrite H by done; lia|lia].
Qed.

Lemma nb_lt P Q n y : (forall x, x < n -> P x = true -> Q x = true) ->
  y < n -> P y = false -> Q y = true -> nb P n < nb Q n.
Proof.
  induction n as [|n IH]; intros H Hy HP HQ; simpl; [lia|].
  destruct (decide (y = n)) as [->|].
  - rewrite HP, HQ. pose proof (nb_le P Q n (fun x Hx => H x (Nat.lt_lt_succ_r _ _ Hx))). lia.
  - specialize (IH (fun x Hx => H x (Nat.lt_lt_succ_r _ _ Hx)) ltac:(lia) HP HQ). specialize (H n ltac:(lia)).
    destruct (P n); [rewrite H by done; lia|lia].
Qed.

Lemma nb_add (P Q T : nat -> bool) n : (forall x, x < n -> (if T x then 1 else 0) = (if P x then 1 else 0) + (if Q x then 1 else 0)) ->
  nb T n = nb P n + nb Q n.
Proof.
  induction n as [|n IH]; intros H; simpl; [lia|]. rewrite IH by (intros; (apply H || idtac); lia). rewrite H by lia. lia.
Qed.

Lemma nb_none P n : (forall x, x < n -> P x = false) -> nb P n = 0.
Proof. induction n as [|n IH]; intros H; simpl; [done|]. rewrite IH, H by (intros; (apply H || idtac); lia). done. Qed.

Lemma nb_filter (P : nat -> Prop) `{!forall x, Decision (P x)} n :
  length (filter P (seq 0 n)) = nb (fun x => bool_decide (P x)) n.
Proof.
  induction n as [|n IH]; [done|]. rewrite seq_S, filter_app, app_length, IH. simpl. f_equal.
  unfold filter, list_filter. simpl. case_bool_decide; destruct (decide (P n)); try done.
Qed.

Lemma nb_cnt_concat rows y : Forall (@NoDup nat) rows ->
  cnt y (concat rows) = nb (fun x => bool_decide (y ∈ adj rows x)) (length rows).
Proof.
  induction rows as [|r rows IH] using rev_ind; intros H; [done|].
  apply Forall_app in H as [H Hr]. inversion Hr as [|? ? Hr' _]; subst.
  rewrite concat_app, cnt_app, IH by done. rewrite app_length. simpl.
  rewrite Nat.add_1_r. simpl. f_equal.
  - apply nb_ext. intros x Hx. unfold adj. by rewrite lookup_app_l.
  - rewrite app_nil_r. unfold adj. rewrite lookup_app_r, Nat.sub_diag by lia. simpl. clear - Hr'.
    induction r as [|z r IH]; simpl; [done|]. inversion Hr' as [|? ? Hz Hr]; subst. rewrite IH by done.
    case_bool_decide as Hy; case_bool_decide as Hy'.
    + destruct (decide (z = y)) as [->|]; [done|done].
    + by rewrite elem_of_cons in Hy'; exfalso; apply Hy'; right.
    + rewrite elem_of_cons in Hy'. destruct Hy' as [->|]; [|done]. by rewrite decide_True.
    + rewrite decide_False; [done|]. intros ->. apply Hy'. by left.
Qed.

(** Injective maps on an initial segment are onto. *)
Lemma inj_onto n (f : nat -> nat) : (forall x, x < n -> f x < n) ->
  (forall x y, x < n -> y < n -> f x = f y -> x = y) -> forall p, p < n -> exists x, x < n /\ f x = p.
Proof.
  intros Hb Hi p Hp.
  assert (f <$> seq 0 n ≡ₚ seq 0 n) as HP.
  { apply submseteq_Permutation_length_eq; [by rewrite fmap_length|].
    apply NoDup_submseteq.
    - apply NoDup_fmap_2_strong; [|apply NoDup_seq].
      intros x y Hx Hy. rewrite elem_of_seq in Hx, Hy. apply Hi; lia.
    - intros x (y & -> & Hy)%elem_of_list_fmap. rewrite elem_of_seq in *. specialize (Hb y). lia. }
  assert (p ∈ f <$> seq 0 n) as Hin by (rewrite HP, elem_of_seq; lia).
  apply elem_of_list_fmap in Hin as (x & -> & Hx). rewrite elem_of_seq in Hx. exists x. split; [lia|done].
Qed.

Lemma all_some {A} (c : list (option A)) :
  (forall i, i < length c -> exists x, c !! i = Some (Some x)) -> exists l, c = Some <$> l.
Proof.
  induction c as [|o c IH]; intros H; [by exists []|].
  destruct (H 0) as [x Hx]; [simpl; lia|]. simpl in Hx. injection Hx as ->.
  destruct IH as [l ->]. { intros i Hi. apply (H (S i)). simpl. lia. }
  by exists (x :: l).
Qed.

(** ** The state of the sort *)

(** [ic]: current count of each vertex; [sv]: vertices in visiting order; [vi]:
    position of each vertex; [bi]: start of each bucket. Positions below [lo]
    have been visited. *)
Record sort_inv (n lo : nat) (ic sv vi bi : list nat) : Prop := {
  si_ic : length ic = n;
  si_sv : length sv = n;
  si_vi : length vi = n;
  si_bij : forall p v, sv !! p = Some v <-> vi !! v = Some p;
  si_mx : forall v c, ic !! v = Some c -> c < length bi;
  si_bi : forall c b p v k, bi !! c = Some b -> lo <= p -> sv !! p = Some v -> ic !! v = Some k ->
            (k < c <-> p < b)
}.

Lemma si_sv_lt n lo ic sv vi bi p v : sort_inv n lo ic sv vi bi -> sv !! p = Some v -> p < n /\ v < n.
Proof.
  intros H E. split.
  - rewrite <- (si_sv _ _ _ _ _ _ H). by eapply lookup_lt_Some.
  - rewrite <- (si_vi _ _ _ _ _ _ H). apply (si_bij _ _ _ _ _ _ H) in E. by eapply lookup_lt_Some.
Qed.

Lemma si_perm n lo ic sv vi bi : sort_inv n lo ic sv vi bi -> sv ≡ₚ seq 0 n.
Proof.
  intros H. apply submseteq_Permutation_length_eq; [by rewrite seq_length, (si_sv _ _ _ _ _ _ H)|].
  apply NoDup_submseteq.
  - apply NoDup_alt. intros i j x Hi Hj. apply (si_bij _ _ _ _ _ _ H) in Hi, Hj. congruence.
  - intros x Hx. apply elem_of_list_lookup in Hx as [p Hp]. rewrite elem_of_seq.
    destruct (si_sv_lt _ _ _ _ _ _ _ _ H Hp). lia.
Qed.

Lemma si_mono n lo lo' ic sv vi bi : lo <= lo' -> sort_inv n lo ic sv vi bi -> sort_inv n lo' ic sv vi bi.
Proof. intros Hl [? ? ? ? ? Hb]. constructor; auto. intros. eapply Hb; eauto. lia. Qed.

(** Positions from [lo] on are sorted by count. *)
Lemma si_sorted n lo ic sv vi bi p q u v a b : sort_inv n lo ic sv vi bi ->
  lo <= p -> p < q -> sv !! p = Some u -> sv !! q = Some v -> ic !! u = Some a -> ic !! v = Some b -> a <= b.
Proof.
  intros H Hl Hpq Hu Hv Ha Hb. destruct (decide (a <= b)) as [|Hn]; [done|exfalso].
  destruct (lookup_lt_is_Some_2 bi a) as [s Hs]; [by eapply si_mx|].
  pose proof (si_bi _ _ _ _ _ _ H a s q v b Hs ltac:(lia) Hv Hb).
  pose proof (si_bi _ _ _ _ _ _ H a s p u a Hs Hl Hu Ha). lia.
Qed.

Definition mk_sort (b1 b2 b3 b4 : nat) (ic sv vi bi : list nat) : sort_result :=
  Sort (farr b1 ic) (farr b2 sv) (farr b3 vi) (farr b4 bi).

Lemma lookup_insert_dec {A} (l : list A) i j x : i < length l ->
  <[i:=x]> l !! j = if decide (i = j) then Some x else l !! j.
Proof.
  intros H. destruct (decide (i = j)) as [->|]; [by rewrite list_lookup_insert|by rewrite list_lookup_insert_ne].
Qed.

(** ** Ties in the order of the indices *)

(** With SCC_STABLE_FINDSEED, vertices with equal counts are in the order of
    their indices from position [lo] on. *)
Definition tied (st : bool) (lo : nat) (ic sv : list nat) : Prop :=
  st = true -> forall p q u v a, lo <= p -> p < q -> sv !! p = Some u -> sv !! q = Some v ->
    ic !! u = Some a -> ic !! v = Some a -> u < v.

Lemma tied_mono st lo lo' ic sv : lo <= lo' -> tied st lo ic sv -> tied st lo' ic sv.
Proof. intros Hl H Hst p q u v a Hp. apply (H Hst). lia. Qed.

(** The element at [pos] moved forward to [q]. *)
Definition moved (sv : list nat) (pos q : nat) (sv' : list nat) : Prop :=
  q <= pos /\ pos < length sv /\ length sv' = length sv /\
  forall i, sv' !! i = if decide (i < q) then sv !! i else if decide (i = q) then sv !! pos
                       else if decide (i <= pos) then sv !! (i - 1) else sv !! i.

Lemma bucket_shift_sat B b2 b3 sv0 vi0 pos0 start t :
  (forall p v, sv0 !! p = Some v <-> vi0 !! v = Some p) -> length sv0 = length vi0 ->
  sv0 !! pos0 = Some t -> pos0 < length sv0 ->
  forall pos sv vi, start <= pos -> pos <= pos0 -> length sv = length sv0 -> length vi = length vi0 ->
  (forall i, i <> pos -> sv !! i = if decide (i < pos) then sv0 !! i else if decide (i <= pos0) then sv0 !! (i - 1) else sv0 !! i) ->
  (forall i u, i <> pos -> sv !! i = Some u -> vi !! u = Some i) ->
  (forall i y, pos <= i -> i < pos0 -> sv0 !! i = Some y -> t < y) ->
  Rsat B (bucket_shift start t pos (farr b2 sv) (farr b3 vi)) (fun '(q, sv', vi') =>
    exists sv1 vi1, sv' = farr b2 sv1 /\ vi' = farr b3 vi1 /\ start <= q /\ q <= pos0 /\
      length sv1 = length sv0 /\ length vi1 = length vi0 /\
      (forall i, i <> q -> sv1 !! i = if decide (i < q) then sv0 !! i else if decide (i <= pos0) then sv0 !! (i - 1) else sv0 !! i) /\
      (forall i u, i <> q -> sv1 !! i = Some u -> vi1 !! u = Some i) /\
      (forall i y, q <= i -> i < pos0 -> sv0 !! i = Some y -> t < y) /\
      (start < q -> exists y, sv0 !! (q - 1) = Some y /\ y <= t)).
Proof.
  intros Hbij Hlen Ht Hpos0. induction pos as [|p IH]; intros sv vi H1 H2 L1 L2 Hsv Hvi Hgt; cbn [bucket_shift].
  - rewrite decide_True by lia. simpl. exists sv, vi. splits; auto; lia.
  - destruct (decide (S p = start)); [simpl; exists sv, vi; splits; auto; lia|].
    destruct (lookup_lt_is_Some_2 sv0 p) as [y Hy]; [lia|].
    assert (sv !! p = Some y) as Hsp by (rewrite Hsv by lia; rewrite decide_True by lia; done).
    rewrite (aget_farr _ _ _ _ Hsp). cbn [Rbind].
    destruct (decide (y <= t)) as [Hyt|Hyt].
    { simpl. exists sv, vi. splits; auto. intros _. exists y. by rewrite Nat.sub_0_r. }
    rewrite aset_farr by lia. cbn [Rbind].
    rewrite (aget_farr _ _ _ y) by (apply list_lookup_insert; lia). cbn [Rbind].
    assert (y < length vi0) as Hyv by (apply Hbij in Hy; by eapply lookup_lt_Some).
    rewrite aset_farr by lia. cbn [Rbind].
    apply IH; [lia|lia|by rewrite insert_length|by rewrite insert_length| | |].
    + intros i Hi. rewrite lookup_insert_dec by lia. destruct (decide (S p = i)) as [<-|Hne].
      * rewrite decide_False by lia. rewrite decide_True by lia. by rewrite Nat.sub_succ, Nat.sub_0_r.
      * rewrite Hsv by lia. repeat case_decide; try lia; done.
    + intros i u Hi. rewrite lookup_insert_dec by lia. destruct (decide (S p = i)) as [<-|Hne].
      * intros [= <-]. apply list_lookup_insert. lia.
      * intros Hu. rewrite lookup_insert_dec by lia. destruct (decide (y = u)) as [<-|]; [|apply Hvi; auto].
        exfalso. rewrite Hsv in Hu by lia. apply Hbij in Hy. repeat case_decide; apply Hbij in Hu; rewrite Hy in Hu; injection Hu; lia.
    + intros i z Hi1 Hi2 Hz. destruct (decide (i = p)) as [->|]; [rewrite Hy in Hz; injection Hz as <-; lia|].
      apply (Hgt i z); auto. lia.
Qed.

Lemma bucket_sort_sat B b2 b3 sv vi pos start t :
  (forall p v, sv !! p = Some v <-> vi !! v = Some p) -> length sv = length vi -> start <= pos -> sv !! pos = Some t ->
  Rsat B (bucket_sort start pos (farr b2 sv) (farr b3 vi)) (fun '(sv', vi') =>
    exists q sv1 vi1, sv' = farr b2 sv1 /\ vi' = farr b3 vi1 /\ start <= q /\ moved sv pos q sv1 /\
      length vi1 = length vi /\ (forall p v, sv1 !! p = Some v <-> vi1 !! v = Some p) /\
      (forall i y, q <= i -> i < pos -> sv !! i = Some y -> t < y) /\
      (start < q -> exists y, sv !! (q - 1) = Some y /\ y <= t)).
Proof.
  intros Hbij Hlen Hs Ht. unfold bucket_sort. rewrite (aget_farr _ _ _ _ Ht). cbn [Rbind].
  assert (pos < length sv) as Hpos by (by eapply lookup_lt_Some).
  apply Rsat_bind. eapply Rsat_mono.
  { apply (bucket_shift_sat B b2 b3 sv vi pos start t Hbij Hlen Ht Hpos pos sv vi); auto.
    - intros i Hi. repeat case_decide; try done. lia.
    - intros i u _ Hu. by apply Hbij.
    - intros; lia. }
  intros [[q sv'] vi'] (sv1 & vi1 & -> & -> & Hq1 & Hq2 & L1 & L2 & Hsv & Hvi & Hgt & Hle).
  rewrite aset_farr by lia. cbn [Rbind]. rewrite (aget_farr _ _ _ t) by (apply list_lookup_insert; lia). cbn [Rbind].
  assert (t < length vi) as Htv by (apply Hbij in Ht; by eapply lookup_lt_Some).
  rewrite aset_farr by lia. simpl. exists q, (<[q:=t]> sv1), (<[t:=q]> vi1).
  assert (moved sv pos q (<[q:=t]> sv1)) as Hm.
  { unfold moved. splits; auto; [by rewrite insert_length|]. intros i. rewrite lookup_insert_dec by lia.
    destruct (decide (q = i)) as [<-|]; [rewrite decide_False, decide_True by lia; done|].
    rewrite Hsv by lia. repeat case_decide; try lia; done. }
  splits; auto.
  { by rewrite insert_length. }
  assert (forall i u, <[q:=t]> sv1 !! i = Some u -> <[t:=q]> vi1 !! u = Some i) as Hfw.
  { intros i u. rewrite lookup_insert_dec by lia. destruct (decide (q = i)) as [<-|Hqi].
    - intros [= <-]. apply list_lookup_insert. lia.
    - intros Hu. rewrite lookup_insert_dec by lia. destruct (decide (t = u)) as [<-|]; [|apply Hvi; auto].
      exfalso. rewrite Hsv in Hu by lia. apply Hbij in Ht.
      repeat case_decide; apply Hbij in Hu; rewrite Ht in Hu; injection Hu; lia. }
  intros p v. split; [apply Hfw|]. intros Hv.
  assert (v < length vi) as Hvn by (apply lookup_lt_Some in Hv; rewrite insert_length in Hv; lia).
  destruct (lookup_lt_is_Some_2 vi v Hvn) as [p0 Hp0]. apply Hbij in Hp0.
  assert (exists i, <[q:=t]> sv1 !! i = Some v) as [i Hi].
  { destruct Hm as (_ & _ & _ & Hm). destruct (decide (p0 < q)).
    - exists p0. rewrite Hm, decide_True by done. done.
    - destruct (decide (p0 = pos)) as [->|]; [exists q; rewrite Hm, decide_False, decide_True by lia; done|].
      destruct (decide (p0 < pos)).
      + exists (S p0). rewrite Hm, decide_False, decide_False, decide_True by lia. by rewrite Nat.sub_succ, Nat.sub_0_r.
      + exists p0. rewrite Hm, decide_False, decide_False, decide_False by lia. done. }
  pose proof (Hfw _ _ Hi) as Hi'. rewrite Hv in Hi'. injection Hi' as ->. done.
Qed.

(** Moving a vertex inside a bucket keeps the state of the sort. *)
Lemma sort_inv_moved n lo ic sv vi bi pos q sv1 vi1 k :
  sort_inv n lo ic sv vi bi -> moved sv pos q sv1 -> length vi1 = n ->
  (forall p v, sv1 !! p = Some v <-> vi1 !! v = Some p) -> lo <= q ->
  (forall i u, q <= i -> i <= pos -> sv !! i = Some u -> ic !! u = Some k) ->
  sort_inv n lo ic sv1 vi1 bi.
Proof.
  intros H (Hq & Hpos & Hl & Hm) Lvi Hbij Hlo Hk. constructor; auto.
  - apply (si_ic _ _ _ _ _ _ H).
  - rewrite Hl. apply (si_sv _ _ _ _ _ _ H).
  - apply (si_mx _ _ _ _ _ _ H).
  - intros c b p v kv Hb Hp Hv Hkv.
    destruct (decide (q <= p /\ p <= pos)) as [[Hp1 Hp2]|Hout].
    + assert (exists i, q <= i /\ i <= pos /\ sv !! i = Some v) as (i & Hi1 & Hi2 & Hi).
      { rewrite Hm in Hv. rewrite decide_False in Hv by lia. destruct (decide (p = q)).
        - exists pos. splits; auto.
        - rewrite decide_True in Hv by lia. exists (p - 1). splits; auto; lia. }
      assert (ic !! v = Some k) as Hvk by (by eapply Hk). assert (kv = k) as -> by congruence.
      destruct (lookup_lt_is_Some_2 sv p) as [u Hu]; [lia|].
      eapply (si_bi _ _ _ _ _ _ H); eauto.
    + rewrite Hm in Hv. eapply (si_bi _ _ _ _ _ _ H); eauto. repeat case_decide; try lia; done.
Qed.

Section Dec.
Context (cfg : config).

(** Decreasing the count of an unvisited vertex. *)
Lemma decrease_sat B n b1 b2 b3 b4 ic sv vi bi cur v p c :
  sort_inv n (cur + 1) ic sv vi bi -> tied (stable_seeds cfg) (cur + 1) ic sv -> vi !! v = Some p -> cur < p -> ic !! v = Some c -> 1 <= c ->
  Rsat B (decrease_v_in_sort cfg v (mk_sort b1 b2 b3 b4 ic sv vi bi) cur) (fun so' =>
    exists sv' vi' bi',
      so' = mk_sort b1 b2 b3 b4 (<[v := c - 1]> ic) sv' vi' bi' /\
      sort_inv n (cur + 1) (<[v := c - 1]> ic) sv' vi' bi' /\
      tied (stable_seeds cfg) (cur + 1) (<[v := c - 1]> ic) sv' /\
      (forall q, q <= cur -> sv' !! q = sv !! q)).
Proof.
  intros H Hti Hp Hcur Hc H1. unfold decrease_v_in_sort, mk_sort. cbn [so_vi so_count so_bi so_sv].
  rewrite (aget_farr _ _ _ _ Hp). cbn [Rbind].
  rewrite (aget_farr _ _ _ _ Hc). cbn [Rbind].
  assert (c < length bi) as Hcb by (by eapply si_mx).
  destruct (lookup_lt_is_Some_2 bi c Hcb) as [b Hb].
  rewrite (aget_farr _ _ _ _ Hb). cbn [Rbind].
  destruct (decide (c = 0)) as [|_]; [lia|].
  assert (sv !! p = Some v) as Hsp by (by apply (si_bij _ _ _ _ _ _ H)).
  destruct (si_sv_lt _ _ _ _ _ _ _ _ H Hsp) as [Hpn Hvn].
  pose proof (si_ic _ _ _ _ _ _ H) as Lic. pose proof (si_sv _ _ _ _ _ _ H) as Lsv.
  pose proof (si_vi _ _ _ _ _ _ H) as Lvi.
  pose proof (si_bi _ _ _ _ _ _ H c b p v c Hb ltac:(lia) Hsp Hc) as Hpb.
  set (to := if decide (b <= cur) then cur + 1 else b).
  set (bi1 := if decide (b <= cur) then <[c - 1 := cur + 1]> bi else bi).
  assert (length bi1 = length bi) as Lbi1.
  { unfold bi1. destruct (decide (b <= cur)); [by rewrite insert_length|done]. }
  assert ((if decide (b <= cur)
           then let! bi0 := aset (farr b4 bi) (c - 1) (cur + 1) in Ok (cur + 1, bi0)
           else Ok (b, farr b4 bi)) = Ok (to, farr b4 bi1)) as ->.
  { unfold to, bi1. destruct (decide (b <= cur)); [|done]. rewrite aset_farr by lia. done. }
  cbn [Rbind].
  rewrite aset_farr by lia. cbn [Rbind]. rewrite aset_farr by lia. cbn [Rbind].
  assert (cur < to <= p) as Hto. { unfold to. destruct (decide (b <= cur)); lia. }
  destruct (lookup_lt_is_Some_2 sv to) as [x Hx]; [lia|].
  rewrite (aget_farr _ _ _ _ Hx). cbn [Rbind].
  rewrite aset_farr by lia. cbn [Rbind]. rewrite aset_farr by (rewrite insert_length; lia). cbn [Rbind].
  rewrite (aget_farr _ _ _ v) by (apply list_lookup_insert; rewrite insert_length; lia). cbn [Rbind].
  rewrite aset_farr by lia. cbn [Rbind].
  set (sv' := <[to:=v]> (<[p:=x]> sv)).
  assert (sv' !! p = Some x) as Hsvp.
  { unfold sv'. rewrite lookup_insert_dec by (rewrite insert_length; lia).
    destruct (decide (to = p)) as [E|]; [|by rewrite list_lookup_insert by lia].
    rewrite E, Hsp in Hx. congruence. }
  rewrite (aget_farr _ _ _ _ Hsvp). cbn [Rbind].
  destruct (si_sv_lt _ _ _ _ _ _ _ _ H Hx) as [_ Hxn].
  rewrite aset_farr by (rewrite insert_length; lia). simpl.
  set (vi' := <[x:=p]> (<[v:=to]> vi)).
  set (bi' := <[c:=to + 1]> bi1).
  assert (vi !! x = Some to) as Hvx by (by apply (si_bij _ _ _ _ _ _ H)).
  assert (forall q u, sv' !! q = Some u <-> (q = to /\ u = v) \/ (q = p /\ u = x /\ p <> to) \/
            (q <> to /\ q <> p /\ sv !! q = Some u)) as Esv.
  { intros q u. unfold sv'. rewrite lookup_insert_dec by (rewrite insert_length; lia).
    destruct (decide (to = q)) as [->|].
    - split; [intros [= ->]; auto | intros [[_ ->]|[(?&?&?)|(?&?&?)]]; [done|congruence|congruence]].
    - rewrite lookup_insert_dec by lia. destruct (decide (p = q)) as [->|].
      + split; [intros [= ->]; auto | intros [[? ->]|[(?&->&?)|(?&?&?)]]; congruence].
      + split; [auto 10 | intros [[? ->]|[(?&->&?)|(?&?&?)]]; congruence]. }
  assert (forall q u, vi' !! u = Some q <-> (q = to /\ u = v) \/ (q = p /\ u = x /\ p <> to) \/
            (q <> to /\ q <> p /\ vi !! u = Some q)) as Evi.
  { intros q u. unfold vi'. rewrite lookup_insert_dec by (rewrite insert_length; lia).
    destruct (decide (x = u)) as [->|Hxu].
    - split.
      + intros [= ->]. destruct (decide (q = to)) as [->|]; [left; split; [done|congruence]|right; left; auto].
      + intros [[-> ->]|[(->&_&_)|(?&?&?)]]; [congruence|done|congruence].
    - rewrite lookup_insert_dec by lia. destruct (decide (v = u)) as [->|Hvu].
      + split; [intros [= ->]; auto|]. intros [[-> _]|[(?&?&?)|(?&?&?)]]; congruence.
      + split.
        { intros E. right. right. apply (si_bij _ _ _ _ _ _ H) in E as E'. split; [congruence|].
          split; [congruence|done]. }
        intros [[? ->]|[(?&?&?)|(?&?&?)]]; congruence. }
  assert (forall q u k, sv !! q = Some u -> ic !! u = Some k ->
            forall c0 s, bi !! c0 = Some s -> cur + 1 <= q -> (k < c0 <-> q < s)) as HB.
  { intros q u k Hq Hk c0 s Hs Hl. eapply (si_bi _ _ _ _ _ _ H); eauto. }
  assert (exists kx, ic !! x = Some kx) as [kx Hkx].
  { destruct (lookup_lt_is_Some_2 ic x) as [kx ?]; [lia|eauto]. }
  assert (kx = c) as ->.
  { assert (c <= kx) as Hge.
    { pose proof (HB to x kx Hx Hkx c b Hb ltac:(lia)). unfold to in *. destruct (decide (b <= cur)); lia. }
    destruct (decide (to = p)) as [E|]; [rewrite E, Hsp in Hx; congruence|].
    pose proof (si_sorted _ _ _ _ _ _ to p x v kx c H ltac:(lia) ltac:(lia) Hx Hsp Hkx Hc). lia. }
  assert (sort_inv n (cur + 1) (<[v := c - 1]> ic) sv' vi' bi') as Hinv.
  { constructor.
    + by rewrite insert_length.
    + unfold sv'. by rewrite !insert_length.
    + unfold vi'. by rewrite !insert_length.
    + intros q u. rewrite Esv, Evi. rewrite (si_bij _ _ _ _ _ _ H). done.
    + intros u k. unfold bi'. rewrite insert_length, Lbi1. rewrite lookup_insert_dec by lia.
      destruct (decide (v = u)); [intros [= <-]; lia|apply (si_mx _ _ _ _ _ _ H)].
    + (* counts of the vertices as functions of the position *)
      (* old count at each position *)
      assert (forall q u k, cur + 1 <= q -> sv' !! q = Some u -> <[v:=c - 1]> ic !! u = Some k ->
                exists u0 k0, sv !! q = Some u0 /\ ic !! u0 = Some k0 /\
                  (if decide (q = to) then k0 = c /\ k = c - 1 else k = k0)) as Hold.
      { intros q u k Hl Hq Hk. apply Esv in Hq as [[-> ->]|[(->&->&Hne)|(H1'&H2'&H3')]].
        - exists x, c. rewrite decide_True by done. rewrite list_lookup_insert in Hk by lia.
          split; [done|]. split; [done|]. split; [done|congruence].
        - exists v, c. rewrite decide_False by done. split; [done|]. split; [done|].
          rewrite list_lookup_insert_ne in Hk; [congruence|]. intros ->. rewrite Hp in Hvx. congruence.
        - exists u, k. rewrite decide_False by done. split; [done|]. split; [|done].
          rewrite list_lookup_insert_ne in Hk; [done|]. intros ->. apply (si_bij _ _ _ _ _ _ H) in H3'. congruence. }
      intros c0 s q u k Hs Hl Hq Hk.
      destruct (Hold q u k Hl Hq Hk) as (u0 & k0 & Hq0 & Hk0 & Hcase).
      unfold bi' in Hs. rewrite lookup_insert_dec in Hs by lia.
      destruct (decide (c = c0)) as [<-|Hc0].
      * injection Hs as <-. pose proof (HB q u0 k0 Hq0 Hk0 c b Hb Hl). unfold to in *.
        destruct (decide (q = _)); destruct (decide (b <= cur)); lia.
      * unfold bi1 in Hs. destruct (decide (b <= cur)) as [Hbc|Hbc].
        -- rewrite lookup_insert_dec in Hs by lia. destruct (decide (c - 1 = c0)) as [<-|Hc1].
           ++ injection Hs as <-. pose proof (HB q u0 k0 Hq0 Hk0 c b Hb Hl). unfold to in *.
              destruct (decide (q = _)); lia.
           ++ pose proof (HB q u0 k0 Hq0 Hk0 c0 s Hs Hl). destruct (decide (q = _)); lia.
        -- pose proof (HB q u0 k0 Hq0 Hk0 c0 s Hs Hl). destruct (decide (q = _)); lia. }
  assert (forall i u, cur + 1 <= i -> sv !! i = Some u -> to <= i -> i <= p -> ic !! u = Some c) as Hmid.
  { intros i u Hl Hi Hi1 Hi2. destruct (lookup_lt_is_Some_2 ic u) as [k Hk].
    { rewrite Lic. by apply (si_sv_lt _ _ _ _ _ _ _ _ H Hi). }
    rewrite Hk. f_equal. assert (c <= k).
    { pose proof (HB i u k Hi Hk c b Hb Hl). unfold to in *. destruct (decide (b <= cur)); lia. }
    destruct (decide (i = p)) as [->|]; [congruence|].
    pose proof (si_sorted _ _ _ _ _ _ i p u v k c H Hl ltac:(lia) Hi Hsp Hk Hc). lia. }
  destruct (stable_seeds cfg) eqn:Est; simpl.
  2:{ exists sv', vi', bi'. splits; auto; [by unfold tied|].
      intros q Hq. unfold sv'. rewrite !list_lookup_insert_ne by lia. done. }
  specialize (Hti eq_refl).
  assert (forall u, u <> v -> ic !! u = <[v:=c - 1]> ic !! u) as Hicne.
  { intros u Hu. by rewrite list_lookup_insert_ne. }
  unfold sort_buckets. cbn [so_sv so_vi so_count so_bi].
  apply Rsat_bind. apply (Rsat_mono _ _ (fun '(s1, i1) => exists sv1 vi1, s1 = farr b2 sv1 /\ i1 = farr b3 vi1 /\
      moved sv p to sv1 /\ sort_inv n (cur + 1) (<[v:=c - 1]> ic) sv1 vi1 bi')).
  { destruct (decide (to <> p)) as [Hne|He].
    - eapply Rsat_mono.
      { apply (bucket_sort_sat B b2 b3 sv' vi' p (to + 1) x); [apply (si_bij _ _ _ _ _ _ Hinv)| |lia|done].
        by rewrite (si_sv _ _ _ _ _ _ Hinv), (si_vi _ _ _ _ _ _ Hinv). }
      intros [s1 i1] (q & sv1 & vi1 & -> & -> & Hq & Hm & L1 & Hb1 & Hgt & Hle).
      pose proof Hm as (Hqp & _ & Lm & Hm').
      assert (q = to + 1) as ->.
      { destruct (decide (q = to + 1)); [done|]. destruct Hle as (y & Hy & Hyx); [lia|].
        apply Esv in Hy as [[? ?]|[(? & ? & ?)|(_ & _ & Hy)]]; [lia|lia|].
        assert (x < y); [|lia]. apply (Hti to (q - 1) x y c); auto; [lia|lia|apply (Hmid (q - 1)); auto; lia]. }
      exists sv1, vi1. splits; auto.
      + unfold moved. splits; [lia|lia|rewrite Lm; unfold sv'; by rewrite !insert_length|].
        intros i. rewrite Hm'. destruct (decide (i < to + 1)) as [Hi|Hi].
        * destruct (decide (i = to)) as [->|].
          { rewrite decide_False by lia. unfold sv'. rewrite list_lookup_insert by (rewrite insert_length; lia). done. }
          rewrite decide_True by lia. unfold sv'. rewrite !list_lookup_insert_ne by lia. done.
        * rewrite (decide_False (P := i < to)), (decide_False (P := i = to)) by lia.
          destruct (decide (i = to + 1)) as [->|].
          { rewrite decide_True by lia. rewrite Hsvp, Nat.add_sub. done. }
          destruct (decide (i <= p)); unfold sv'; rewrite !list_lookup_insert_ne by lia; done.
      + eapply (sort_inv_moved _ _ _ _ _ _ p (to + 1) _ _ c); [done|done|by rewrite L1, (si_vi _ _ _ _ _ _ Hinv)|done|lia|].
        intros i u Hi1 Hi2 Hu. apply Esv in Hu as [[? ?]|[(-> & -> & ?)|(? & ? & Hu)]]; [lia| |].
        * rewrite list_lookup_insert_ne; [done|]. intros ->. congruence.
        * rewrite list_lookup_insert_ne; [apply (Hmid i); auto; lia|]. intros ->. apply (si_bij _ _ _ _ _ _ H) in Hu. congruence.
    - assert (to = p) as -> by (destruct (decide (to = p)); tauto). simpl. exists sv', vi'. splits; auto.
      unfold moved. splits; [lia|lia|unfold sv'; by rewrite !insert_length|]. intros i.
      assert (x = v) as -> by congruence. unfold sv'. rewrite list_insert_insert.
      rewrite lookup_insert_dec by lia. repeat case_decide; try lia; congruence. }
  intros [s1 i1] (sv1 & vi1 & -> & -> & Hm1 & Hinv1).
  assert (<[v:=c - 1]> ic !! v = Some (c - 1)) as Hicv by (apply list_lookup_insert; lia).
  rewrite (aget_farr _ _ _ _ Hicv). cbn [Rbind].
  destruct (lookup_lt_is_Some_2 bi' (c - 1)) as [b0 Hb0].
  { unfold bi'. rewrite insert_length, Lbi1. lia. }
  rewrite (aget_farr _ _ _ _ Hb0). cbn [Rbind].
  pose proof Hm1 as (_ & _ & Lsv1 & Hm1').
  assert (sv1 !! to = Some v) as Hv1 by (rewrite Hm1', decide_False, decide_True by lia; done).
  pose proof (si_bi _ _ _ _ _ _ Hinv1 (c - 1) b0 to v (c - 1) Hb0 ltac:(lia) Hv1 Hicv) as Hb0to.
  set (st := if decide (b0 <= cur) then cur + 1 else b0).
  set (bi2 := if decide (b0 <= cur) then <[c - 1 := cur + 1]> bi' else bi').
  assert (c - 1 < length bi') as Lbi' by (by eapply lookup_lt_Some).
  assert ((if decide (b0 <= cur) then aset (farr b4 bi') (c - 1) (cur + 1) else Ok (farr b4 bi')) = Ok (farr b4 bi2)) as ->.
  { unfold bi2. destruct (decide (b0 <= cur)); [|done]. by rewrite aset_farr. }
  cbn [Rbind].
  assert (bi2 !! (c - 1) = Some st) as Hst.
  { unfold bi2, st. destruct (decide (b0 <= cur)); [by apply list_lookup_insert|done]. }
  rewrite (aget_farr _ _ _ _ Hst). cbn [Rbind].
  assert (cur < st <= to) as Hstto. { unfold st. destruct (decide (b0 <= cur)); lia. }
  assert (sort_inv n (cur + 1) (<[v:=c - 1]> ic) sv1 vi1 bi2) as Hinv2.
  { pose proof Hinv1 as [I1 I2 I3 I4 I5 I6]. constructor; auto.
    - intros u k Hk. unfold bi2. destruct (decide (b0 <= cur)); [rewrite insert_length|]; eauto.
    - intros c0 s i u k Hs Hl Hi Hk. unfold bi2 in Hs. destruct (decide (b0 <= cur)) as [Hb0c|]; [|by eapply I6].
      rewrite lookup_insert_dec in Hs by done. destruct (decide (c - 1 = c0)) as [<-|]; [|by eapply I6].
      injection Hs as <-. pose proof (I6 (c - 1) b0 i u k Hb0 Hl Hi Hk). lia. }
  assert (forall i u, st <= i -> i <= to -> sv1 !! i = Some u -> <[v:=c - 1]> ic !! u = Some (c - 1)) as Hlow.
  { intros i u Hi1 Hi2 Hi. destruct (lookup_lt_is_Some_2 (<[v:=c - 1]> ic) u) as [k Hk].
    { rewrite insert_length, Lic. by apply (si_sv_lt _ _ _ _ _ _ _ _ Hinv1 Hi). }
    rewrite Hk. f_equal. pose proof (si_bi _ _ _ _ _ _ Hinv2 (c - 1) st i u k Hst ltac:(lia) Hi Hk).
    destruct (decide (i = to)) as [->|]; [congruence|].
    pose proof (si_sorted _ _ _ _ _ _ i to u v k (c - 1) Hinv2 ltac:(lia) ltac:(lia) Hi Hv1 Hk Hicv). lia. }
  apply Rsat_bind. eapply Rsat_mono.
  { apply (bucket_sort_sat B b2 b3 sv1 vi1 to st v); [apply (si_bij _ _ _ _ _ _ Hinv2)| |lia|done].
    by rewrite (si_sv _ _ _ _ _ _ Hinv2), (si_vi _ _ _ _ _ _ Hinv2). }
  intros [s2 i2] (q & sv2 & vi2 & -> & -> & Hq & Hm2 & L2 & Hbij2 & Hgt & Hle). simpl.
  exists sv2, vi2, bi2. split; [done|]. pose proof Hm2 as (Hqto & _ & Lsv2 & Hm2').
  assert (sort_inv n (cur + 1) (<[v:=c - 1]> ic) sv2 vi2 bi2) as Hinv3.
  { eapply (sort_inv_moved _ _ _ _ _ _ to q _ _ (c - 1)); [done|done|by rewrite L2, (si_vi _ _ _ _ _ _ Hinv2)|done|lia|].
    intros i u Hi1 Hi2. apply Hlow; lia. }
  split; [done|].
  assert (forall i, sv2 !! i = if decide (i < q) then sv !! i else if decide (i = q) then Some v
                       else if decide (i <= p) then sv !! (i - 1) else sv !! i) as Hsv2.
  { intros i. rewrite Hm2', Hv1. destruct (decide (i < q)); [rewrite Hm1', decide_True by lia; done|].
    destruct (decide (i = q)); [done|]. destruct (decide (i <= to)).
    - rewrite (decide_True (P := i <= p)), Hm1', decide_True by lia. done.
    - rewrite Hm1', decide_False, decide_False by lia. done. }
  split.
  2:{ intros i Hi. rewrite Hsv2, decide_True by lia. done. }
  (* where a vertex other than [v] was before *)
  assert (forall i u, cur + 1 <= i -> sv2 !! i = Some u -> i <> q ->
     exists i0, sv !! i0 = Some u /\ u <> v /\ cur + 1 <= i0 /\
       ((i < q /\ i0 = i) \/ (q < i /\ i <= p /\ i0 = i - 1) \/ (p < i /\ i0 = i))) as Hwas.
  { intros i u Hl Hi Hiq. assert (u <> v) as Huv.
    { intros ->. assert (sv2 !! q = Some v) as Hq2 by (rewrite Hsv2, decide_False, decide_True by lia; done).
      apply Hbij2 in Hi, Hq2. congruence. }
    rewrite Hsv2 in Hi. destruct (decide (i < q)); [exists i; splits; auto|].
    rewrite decide_False in Hi by done. destruct (decide (i <= p)).
    - exists (i - 1). splits; auto; [lia|]. right. left. splits; auto. lia.
    - exists i. splits; auto. right. right. split; [lia|done]. }
  intros _ i j u w a Hl Hij Hu Hw Ha Ha'.
  destruct (decide (i = q)) as [->|Hiq].
  - assert (u = v) as -> by (rewrite Hsv2, decide_False, decide_True in Hu by lia; congruence).
    assert (a = c - 1) as -> by congruence.
    destruct (Hwas j w) as (j0 & Hj0 & Hwv & Hlj & Hcase); [lia|done|lia|].
    rewrite <- Hicne in Ha' by done.
    pose proof (HB j0 w (c - 1) Hj0 Ha' c b Hb Hlj) as Hj0b.
    assert (j0 < to) by (unfold to in *; destruct (decide (b <= cur)); lia).
    apply (Hgt j0 w); [lia|lia|]. rewrite Hm1', decide_True by lia. done.
  - destruct (Hwas i u) as (i0 & Hi0 & Huv & Hli & Hcasei); [lia|done|done|].
    destruct (decide (j = q)) as [->|Hjq].
    + assert (w = v) as -> by (rewrite Hsv2, decide_False, decide_True in Hw by lia; congruence).
      assert (a = c - 1) as -> by congruence.
      assert (i0 = i) as -> by lia.
      assert (sv1 !! i = Some u) as Hi1 by (rewrite Hm1', decide_True by lia; done).
      pose proof (si_bi _ _ _ _ _ _ Hinv2 (c - 1) st i u (c - 1) Hst ltac:(lia) Hi1 Ha) as Hbi.
      destruct Hle as (y & Hy & Hyv); [lia|].
      assert (y <> v). { intros ->. apply (si_bij _ _ _ _ _ _ Hinv2) in Hy, Hv1. rewrite Hy in Hv1. injection Hv1. lia. }
      destruct (decide (i = q - 1)) as [->|]; [assert (u = y) by congruence; lia|].
      assert (u < y); [|lia]. apply (Hti i (q - 1) u y (c - 1)); auto; [lia| | |].
      * rewrite Hm1', decide_True in Hy by lia. done.
      * by rewrite Hicne.
      * rewrite Hicne by done. apply (Hlow (q - 1)); auto; lia.
    + destruct (Hwas j w) as (j0 & Hj0 & Hwv & Hlj & Hcasej); [lia|done|done|].
      apply (Hti i0 j0 u w a); auto; [lia|by rewrite Hicne|by rewrite Hicne].
Qed.

(** ** Sequences of decrements *)

(** State of the sort while the vertex at position [cur] is processed; [pre]
    are the vertices up to there. *)
Definition sst (n cur : nat) (pre : list nat) (bs : nat * nat * nat * nat) (ic : list nat)
    (so : sort_result) : Prop :=
  exists sv vi bi, so = mk_sort bs.1.1.1 bs.1.1.2 bs.1.2 bs.2 ic sv vi bi /\
    sort_inv n (cur + 1) ic sv vi bi /\ tied (stable_seeds cfg) (cur + 1) ic sv /\ take (cur + 1) sv = pre.

Lemma pos_pre n lo cur ic sv vi bi u q : sort_inv n lo ic sv vi bi -> vi !! u = Some q ->
  (cur < q <-> u ∉ take (cur + 1) sv).
Proof.
  intros H Hq. apply (si_bij _ _ _ _ _ _ H) in Hq as Hs. split.
  - intros Hc (i & Hi)%elem_of_list_lookup. apply lookup_take_Some in Hi as [Hi Hl].
    apply (si_bij _ _ _ _ _ _ H) in Hi. assert (q = i) by congruence. lia.
  - intros Hn. destruct (decide (cur < q)) as [|Hge]; [done|]. exfalso. apply Hn.
    apply elem_of_list_lookup. exists q. rewrite lookup_take by lia. done.
Qed.

Lemma dec_one B n cur pre bs ic so v c : sst n cur pre bs ic so -> v < n -> v ∉ pre ->
  ic !! v = Some c -> 1 <= c ->
  Rsat B (decrease_v_in_sort cfg v so cur) (sst n cur pre bs (<[v := c - 1]> ic)).
Proof.
  intros (sv & vi & bi & -> & H & Hti & <-) Hv Hpre Hc H1.
  destruct (lookup_lt_is_Some_2 vi v) as [p Hp]; [by rewrite (si_vi _ _ _ _ _ _ H)|].
  eapply Rsat_mono.
  - eapply decrease_sat; eauto. by eapply pos_pre.
  - intros so' (sv' & vi' & bi' & -> & H' & Hti' & Hpf). exists sv', vi', bi'. split; [done|]. split; [done|]. split; [done|].
    apply list_eq. intros i. destruct (decide (i < cur + 1)).
    + rewrite !lookup_take by done. apply Hpf. lia.
    + rewrite !lookup_take_ge by lia. done.
Qed.

Definition dec_ic (C : nat -> bool) (l : list nat) (ic : list nat) : list nat :=
  imap (fun y c => c - (if C y then cnt y l else 0)) ic.

Lemma dec_ic_length C l ic : length (dec_ic C l ic) = length ic.
Proof. apply imap_length. Qed.

Lemma dec_ic_lookup C l ic y : dec_ic C l ic !! y = (fun c => c - (if C y then cnt y l else 0)) <$> ic !! y.
Proof. apply list_lookup_imap. Qed.

Lemma dec_fold B n cur pre bs (C : nat -> bool) (f : nat -> sort_result -> R sort_result) l :
  (forall y ic so, y ∈ l -> sst n cur pre bs ic so ->
     f y so = if C y then decrease_v_in_sort cfg y so cur else Ok so) ->
  (forall y, y ∈ l -> C y = true -> y < n /\ y ∉ pre) ->
  forall ic so, sst n cur pre bs ic so ->
  (forall y c, C y = true -> ic !! y = Some c -> cnt y l <= c) ->
  Rsat B (foldR f so l) (sst n cur pre bs (dec_ic C l ic)).
Proof.
  induction l as [|x l IH]; intros Hf HC ic so Hs Hcnt; simpl.
  { replace (dec_ic C [] ic) with ic; [done|]. apply list_eq. intros i. rewrite dec_ic_lookup.
    destruct (ic !! i); simpl; [|done]. f_equal. destruct (C i); lia. }
  apply Rsat_bind. rewrite (Hf x ic so) by (done || apply elem_of_list_here).
  assert (forall ic1, length ic1 = length ic ->
    (forall y, ic1 !! y = (fun c => c - (if C y then if decide (x = y) then 1 else 0 else 0)) <$> ic !! y) ->
    dec_ic C l ic1 = dec_ic C (x :: l) ic) as Hstep.
  { intros ic1 Hlen H1. apply list_eq. intros y. rewrite !dec_ic_lookup, H1. destruct (ic !! y); simpl; [|done].
    f_equal. destruct (C y); lia. }
  destruct (C x) eqn:Ex.
  - destruct (HC x) as [Hxn Hxp]; [apply elem_of_list_here|done|].
    assert (length ic = n) as Lic by (destruct Hs as (?&?&?&?&Hi&?); apply Hi).
    destruct (lookup_lt_is_Some_2 ic x) as [c Hc]; [lia|].
    pose proof (Hcnt x c Ex Hc) as Hx. simpl in Hx. rewrite decide_True in Hx by done.
    eapply Rsat_mono; [eapply dec_one; eauto; lia|].
    intros so' Hs'. assert (forall y, <[x:=c-1]> ic !! y =
       (fun c => c - (if C y then if decide (x = y) then 1 else 0 else 0)) <$> ic !! y) as E1.
    { intros y. rewrite lookup_insert_dec by lia. destruct (decide (x = y)) as [<-|].
      - rewrite Hc, Ex. done.
      - destruct (ic !! y); simpl; [|done]. f_equal. destruct (C y); lia. }
    rewrite <- (Hstep (<[x:=c-1]> ic)); [|by rewrite insert_length|done].
    apply IH; [intros y icy soy Hy Hsy; apply (Hf y icy soy); [by apply elem_of_list_further|done]| |done|].
    + intros y Hy. apply HC. by apply elem_of_list_further.
    + intros y k Hy Hk. rewrite E1 in Hk. destruct (ic !! y) as [k0|] eqn:Ey; [|done]. simpl in Hk.
      rewrite Hy in Hk. injection Hk as <-. specialize (Hcnt y k0 Hy Ey). simpl in Hcnt. lia.
  - simpl. rewrite <- (Hstep ic).
    + apply IH; [intros y icy soy Hy Hsy; apply (Hf y icy soy); [by apply elem_of_list_further|done]| |done|].
      * intros y Hy. apply HC. by apply elem_of_list_further.
      * intros y k Hy Hk. specialize (Hcnt y k Hy Hk). simpl in Hcnt. lia.
    + done.
    + intros y. destruct (ic !! y) as [k0|] eqn:Ey; simpl; [|done]. f_equal.
      destruct (decide (x = y)) as [<-|]; [rewrite Ex; lia|]. destruct (C y); lia.
Qed.

End Dec.

(** ** Making the sort *)

Section Make.
Context (cfg : config).

Definition icf (rows : list (list nat)) (v : nat) : nat := cnt v (concat rows).

(** Position of [u] in ascending order of count, ties by index. *)
Definition rank (f : nat -> nat) (n u : nat) : nat :=
  nb (fun w => bool_decide (f w < f u \/ (f w = f u /\ w < u))) n.

Lemma rank_lt f n u : u < n -> rank f n u < n.
Proof.
  intros Hu. unfold rank. apply Nat.lt_le_trans with (nb (fun _ => true) n); [|apply nb_le_n].
  eapply (nb_lt _ _ _ u); [done|done| |done]. apply bool_decide_eq_false. lia.
Qed.

Lemma rank_mono f n u v : u < n -> (f u < f v \/ (f u = f v /\ u < v)) -> rank f n u < rank f n v.
Proof.
  intros Hu H. unfold rank. eapply (nb_lt _ _ _ u); [|done| |].
  - intros x Hx. rewrite !bool_decide_eq_true. lia.
  - apply bool_decide_eq_false. lia.
  - apply bool_decide_eq_true. done.
Qed.

Lemma rank_inj f n u v : u < n -> v < n -> rank f n u = rank f n v -> u = v.
Proof.
  intros Hu Hv E. destruct (decide (u = v)) as [|Hne]; [done|].
  assert (f u < f v \/ (f u = f v /\ u < v) \/ f v < f u \/ (f v = f u /\ v < u)) as [|[|[|]]] by lia.
  - pose proof (rank_mono f n u v). lia.
  - pose proof (rank_mono f n u v). lia.
  - pose proof (rank_mono f n v u). lia.
  - pose proof (rank_mono f n v u). lia.
Qed.

(** Number of vertices with a count below [c]. *)
Definition below (f : nat -> nat) (n c : nat) : nat := nb (fun w => bool_decide (f w < c)) n.

Lemma rank_below f n u c : u < n -> (f u < c <-> rank f n u < below f n c).
Proof.
  intros Hu. split.
  - intros H. unfold rank, below. eapply (nb_lt _ _ _ u); [|done| |].
    + intros x Hx. rewrite !bool_decide_eq_true. lia.
    + apply bool_decide_eq_false. lia.
    + by apply bool_decide_eq_true.
  - intros H. destruct (decide (f u < c)); [done|exfalso].
    assert (below f n c <= rank f n u); [|lia]. unfold rank, below. apply nb_le.
    intros x Hx. rewrite !bool_decide_eq_true. lia.
Qed.

(** The vertices in the order of the sort. *)
Definition sorted_list (f : nat -> nat) (n : nat) (sv : list nat) : Prop :=
  length sv = n /\ forall u, u < n -> sv !! rank f n u = Some u.

Lemma sorted_list_ordered f n sv : sorted_list f n sv -> ordered_by n f sv.
Proof.
  intros [Hl H].
  assert (forall p v, sv !! p = Some v -> v < n /\ rank f n v = p) as Hinv.
  { intros p v Hp. assert (p < n) as Hpn by (rewrite <- Hl; by eapply lookup_lt_Some).
    destruct (inj_onto n (rank f n)) with p as (u & Hu & E); [apply rank_lt|apply rank_inj|done|].
    specialize (H u Hu). rewrite E, Hp in H. injection H as ->. done. }
  split.
  - apply submseteq_Permutation_length_eq; [by rewrite seq_length|].
    apply NoDup_submseteq.
    + apply NoDup_alt. intros i j x Hi Hj. apply Hinv in Hi, Hj. lia.
    + intros x (p & Hp)%elem_of_list_lookup. apply Hinv in Hp. rewrite elem_of_seq. lia.
  - intros i j u v Hij Hu Hv. apply Hinv in Hu as [Hu Ei]. apply Hinv in Hv as [Hv Ej].
    destruct (decide (u = v)) as [->|]; [lia|].
    assert (~ (f v < f u \/ (f v = f u /\ v < u))); [|lia].
    intros Hc. pose proof (rank_mono f n v u Hv Hc). lia.
Qed.

Lemma sorted_list_inv f n sv vi bi ic :
  sorted_list f n sv -> length vi = n -> (forall u, u < n -> vi !! u = Some (rank f n u)) ->
  length ic = n -> (forall u, u < n -> ic !! u = Some (f u)) -> (forall u, u < n -> f u < length bi) ->
  (forall c b, bi !! c = Some b -> b = below f n c) ->
  sort_inv n 0 ic sv vi bi.
Proof.
  intros [Lsv Hsv] Lvi Hvi Lic Hic Hmx Hbi.
  assert (forall p v, sv !! p = Some v -> v < n /\ rank f n v = p) as Hinv.
  { intros p v Hp. assert (p < n) as Hpn by (rewrite <- Lsv; by eapply lookup_lt_Some).
    destruct (inj_onto n (rank f n)) with p as (u & Hu & E); [apply rank_lt|apply rank_inj|done|].
    specialize (Hsv u Hu). rewrite E, Hp in Hsv. injection Hsv as ->. done. }
  constructor; auto.
  - intros p v. split.
    + intros Hp. destruct (Hinv _ _ Hp) as [Hv <-]. auto.
    + intros Hv. assert (v < n) as Hvn by (rewrite <- Lvi; by eapply lookup_lt_Some).
      rewrite Hvi in Hv by done. injection Hv as <-. auto.
  - intros v c Hc. assert (v < n) as Hvn by (rewrite <- Lic; by eapply lookup_lt_Some).
    rewrite Hic in Hc by done. injection Hc as <-. auto.
  - intros c b p v k Hb _ Hp Hk. destruct (Hinv _ _ Hp) as [Hv <-]. rewrite Hic in Hk by done.
    injection Hk as <-. rewrite (Hbi c b Hb). by apply rank_below.
Qed.

Lemma sorted_list_tied st f n sv ic : sorted_list f n sv -> (forall u, u < n -> ic !! u = Some (f u)) -> tied st 0 ic sv.
Proof.
  intros Hs Hic _ p q u v a _ Hpq Hu Hv Ha Hb.
  destruct (sorted_list_ordered _ _ _ Hs) as [Hp _]. destruct Hs as [_ Hs].
  assert (forall i x, sv !! i = Some x -> x < n) as Hlt.
  { intros i x Hi. apply elem_of_list_lookup_2 in Hi. rewrite Hp, elem_of_seq in Hi. lia. }
  assert (NoDup sv) as Hnd by (rewrite Hp; apply NoDup_seq).
  pose proof (Hlt _ _ Hu) as Hun. pose proof (Hlt _ _ Hv) as Hvn.
  rewrite Hic in Ha, Hb by done. assert (f u = f v) as E by congruence.
  destruct (decide (u < v)); [done|exfalso].
  assert (u <> v). { intros ->. pose proof (NoDup_lookup _ _ _ _ Hnd Hu Hv). lia. }
  pose proof (rank_mono f n v u Hvn ltac:(lia)).
  pose proof (NoDup_lookup _ _ _ _ Hnd Hu (Hs u Hun)). pose proof (NoDup_lookup _ _ _ _ Hnd Hv (Hs v Hvn)). lia.
Qed.

(** Block ids of the sort. *)
Definition so_blocks (so : sort_result) : list nat :=
  arr_blk (so_count so) ++ arr_blk (so_sv so) ++ arr_blk (so_vi so) ++ arr_blk (so_bi so).

Lemma Msat_free_sort B so w (Q : unit -> world -> Prop) :
  (forall x, cnt x (so_blocks so) <= cnt x (w_live w)) ->
  (forall w', wle w w' ->
     (forall x, cnt x (w_live w) = cnt x (so_blocks so) + cnt x (w_live w')) ->
     w_err w' = w_err w -> w_tick w' = w_tick w -> Q tt w') ->
  Msat B (free_sort_result so) w Q.
Proof.
  intros Hb HQ. unfold free_sort_result, so_blocks in *.
  apply Msat_bind, Msat_free_arr; [blk|]. intros w1 L1 C1 E1 T1.
  apply Msat_bind, Msat_free_arr; [blk|]. intros w2 L2 C2 E2 T2.
  apply Msat_bind, Msat_free_arr; [blk|]. intros w3 L3 C3 E3 T3.
  apply Msat_free_arr; [blk|]. intros w4 L4 C4 E4 T4.
  apply HQ; [eauto| |congruence|congruence]. blk.
Qed.

Lemma count_sat B dg rows b : dg_rep cfg dg rows -> (forall v, v < length rows -> (N.of_nat (icf rows v) <= pi_max cfg)%N) ->
  Rsat B (for_ptr 0 (length (concat rows)) (farr b (replicate (length rows) 0)) (fun j ic =>
        let! x := aget (dg_head dg) j in
        let! c := aget ic x in
        let! c := inc_pi cfg c in
        aset ic x c))
    (fun p => exists ic, p = farr b ic /\ length ic = length rows /\
       forall v, v < length rows -> ic !! v = Some (icf rows v)).
Proof.
  intros H Hpi.
  rewrite (for_all_arcs_fold cfg dg rows _ (fun x ic => let! c := aget ic x in let! c := inc_pi cfg c in aset ic x c)) by done.
  apply (foldR_sat B (fun pre p => exists ic, p = farr b ic /\ length ic = length rows /\
       forall v, v < length rows -> ic !! v = Some (cnt v pre))).
  - exists (replicate (length rows) 0). rewrite replicate_length. split; [done|]. split; [done|].
    intros v Hv. by rewrite lookup_replicate_2.
  - intros pre x post s Heq (ic & -> & Lic & Hic).
    assert (x < length rows) as Hx.
    { pose proof (rep_lt _ _ _ H) as Hlt. apply Forall_concat in Hlt. rewrite Heq in Hlt.
      apply Forall_app in Hlt as [_ Hlt]. by inversion Hlt. }
    rewrite (aget_farr _ _ _ _ (Hic x Hx)). cbn [Rbind].
    unfold inc_pi. destruct (N.leb_spec (N.of_nat (cnt x pre + 1)) (pi_max cfg)) as [_|Hgt].
    2:{ exfalso. specialize (Hpi x Hx). unfold icf in Hpi. rewrite Heq, cnt_app in Hpi. simpl in Hpi.
        rewrite decide_True in Hpi by done. lia. }
    cbn [Rbind]. rewrite aset_farr by lia. simpl. eexists. split; [done|]. rewrite insert_length. split; [done|].
    intros v Hv. rewrite lookup_insert_dec by lia. rewrite cnt_app. simpl.
    destruct (decide (x = v)) as [->|]; [f_equal; lia|]. rewrite Hic by done. f_equal. lia.
Qed.

Lemma max_sat B b ic f n : (forall v, v < n -> ic !! v = Some (f v)) ->
  Rsat B (forR n 0 0 (fun v mx =>
        let! c := aget (farr b ic) v in
        Ok (if decide (mx < c) then c else mx))) (fun mx => forall v, v < n -> f v <= mx).
Proof.
  intros Hic. apply (forR_sat0 B (fun k mx => forall v, v < k -> f v <= mx)); [lia| |done].
  intros j mx Hj HI. rewrite (aget_farr _ _ _ _ (Hic j Hj)). simpl. intros v Hv.
  destruct (decide (v = j)) as [->|]; [destruct (decide (mx < f j)); lia|].
  specialize (HI v ltac:(lia)). destruct (decide (mx < f j)); lia.
Qed.

Definition upto (f : nat -> nat) (n c : nat) : nat := nb (fun w => bool_decide (f w <= c)) n.

Lemma buckets_sat B b b' ic bb f n mx : length ic = n -> (forall v, v < n -> ic !! v = Some (f v)) ->
  (forall v, v < n -> f v <= mx) ->
  Rsat B (let! bc := forR n 0 (farr b (replicate (mx + 1) 0)) (fun v bc =>
          let! c := aget (farr b' ic) v in
          let! b := aget bc c in
          aset bc c (b + 1)) in
        let! b0 := aget bc 0 in
        let! bi := aset (Some (Arr bb (fresh nat (mx + 1)))) 0 b0 in
        forR mx 1 bi (fun b bi =>
          let! p := aget bi (b - 1) in
          let! c := aget bc b in
          aset bi b (p + c)))
    (fun p => exists bi, p = farr bb bi /\ length bi = mx + 1 /\ forall c, c <= mx -> bi !! c = Some (upto f n c)).
Proof.
  intros Lic Hic Hmx. eapply Rsat_bind_mono.
  { apply (forR_sat0 B (fun k p => exists bc, p = farr b bc /\ length bc = mx + 1 /\
      forall c, c <= mx -> bc !! c = Some (nb (fun w => bool_decide (f w = c)) k)) n).
    - exists (replicate (mx + 1) 0). rewrite replicate_length. split; [done|]. split; [done|].
      intros c Hc. rewrite lookup_replicate_2 by lia. done.
    - intros j p Hj (bc & -> & Lbc & Hbc). rewrite (aget_farr _ _ _ _ (Hic j Hj)). cbn [Rbind].
      rewrite (aget_farr _ _ _ _ (Hbc (f j) (Hmx j Hj))). cbn [Rbind].
      rewrite aset_farr by (specialize (Hmx j Hj); lia). simpl. eexists. split; [done|]. rewrite insert_length.
      split; [done|]. intros c Hc. rewrite lookup_insert_dec by (specialize (Hmx j Hj); lia).
      destruct (decide (f j = c)) as [->|Hne].
      + rewrite bool_decide_eq_true_2 by done. done.
      + rewrite Hbc by done. rewrite bool_decide_eq_false_2 by done. f_equal. lia.
    - intros p Hp. exact Hp. }
  intros p (bc & -> & Lbc & Hbc). rewrite (aget_farr _ _ _ _ (Hbc 0 ltac:(lia))). cbn [Rbind].
  unfold fresh. rewrite aset_cells by (rewrite replicate_length; lia). cbn [Rbind].
  eapply Rsat_mono.
  - apply (forR_sat B (fun k p => exists c, p = Some (Arr bb c) /\ length c = mx + 1 /\
      forall d, d < k -> c !! d = Some (Some (upto f n d)))).
    + eexists. split; [done|]. rewrite insert_length, replicate_length. split; [done|].
      intros d Hd. assert (d = 0) as -> by lia. rewrite list_lookup_insert by (rewrite replicate_length; lia).
      f_equal. f_equal. apply nb_ext. intros x _. apply bool_decide_ext. lia.
    + intros j p Hj (c & -> & Lc & Hc). rewrite (aget_cells _ _ _ _ (Hc (j - 1) ltac:(lia))). cbn [Rbind].
      rewrite (aget_farr _ _ _ _ (Hbc j ltac:(lia))). cbn [Rbind].
      rewrite aset_cells by lia. simpl. eexists. split; [done|]. rewrite insert_length. split; [done|].
      intros d Hd. rewrite lookup_insert_dec by lia. destruct (decide (j = d)) as [<-|]; [|apply Hc; lia].
      f_equal. f_equal. symmetry. apply nb_add. intros x _. repeat case_bool_decide; lia.
  - intros p (c & -> & Lc & Hc). destruct (all_some c) as [l ->].
    { intros i Hi. rewrite Hc by lia. eauto. }
    rewrite fmap_length in Lc. exists l. split; [done|]. split; [done|]. intros d Hd.
    specialize (Hc d ltac:(lia)). rewrite list_lookup_fmap in Hc. destruct (l !! d); simpl in Hc; congruence.
Qed.

Lemma place_sat B (mi : bool) b1 b2 b3 b4 ic bi f n mx vi0 : length ic = n ->
  (forall v, v < n -> ic !! v = Some (f v)) -> (forall v, v < n -> f v <= mx) ->
  length bi = mx + 1 -> (forall c, c <= mx -> bi !! c = Some (upto f n c)) ->
  (mi = true -> vi0 = Some (Arr b3 (fresh nat n))) ->
  Rsat B (forR n 0 (Some (Arr b2 (fresh nat n)), vi0, farr b4 bi) (fun i '(sv, vi, bi) =>
          let v := n - 1 - i in
          let! c := aget (farr b1 ic) v in
          let! b := aget bi c in
          if decide (b = 0) then Bad Oob else
          let! bi := aset bi c (b - 1) in
          let! sv := aset sv (b - 1) v in
          let! vi := (if mi then aset vi v (b - 1) else Ok vi) in
          Ok (sv, vi, bi)))
    (fun '(sv, vi, bi) => exists svl bil, sv = farr b2 svl /\ bi = farr b4 bil /\
       sorted_list f n svl /\ length bil = mx + 1 /\
       (forall c b, bil !! c = Some b -> b = below f n c) /\
       (if mi then exists vil, vi = farr b3 vil /\ length vil = n /\ (forall u, u < n -> vil !! u = Some (rank f n u))
        else vi = vi0)).
Proof.
  intros Lic Hic Hmx Lbi Hbi Hvi0.
  eapply Rsat_mono.
  - apply (forR_sat B (fun k '(sv, vi, bi) => exists svc bil, sv = Some (Arr b2 svc) /\ bi = farr b4 bil /\
       length svc = n /\ (forall u, u < n -> n - k <= u -> svc !! rank f n u = Some (Some u)) /\
       length bil = mx + 1 /\
       (forall c, c <= mx -> bil !! c = Some (upto f n c - nb (fun w => bool_decide (n - k <= w /\ f w = c)) n)) /\
       (if mi then exists vic, vi = Some (Arr b3 vic) /\ length vic = n /\
           (forall u, u < n -> n - k <= u -> vic !! u = Some (Some (rank f n u)))
        else vi = vi0))).
    + exists (fresh nat n), bi. split; [done|]. split; [done|]. unfold fresh. rewrite replicate_length. split; [done|].
      split; [intros; lia|]. split; [done|]. split.
      { intros c Hc. rewrite Hbi by done. f_equal. rewrite (nb_none (fun w => _)); [lia|].
        intros x Hx. apply bool_decide_eq_false. lia. }
      destruct mi; [|done]. rewrite Hvi0 by done. unfold fresh. eexists. split; [done|]. rewrite replicate_length.
      split; [done|]. intros; lia.
    + intros k [[sv vi] bi1] Hk (svc & bil & -> & -> & Lsv & Hsv & Lbil & Hbil & Hvi).
      cbv zeta. remember (n - 1 - k) as v eqn:Ev. assert (v < n) as Hv by lia.
      rewrite (aget_farr _ _ _ _ (Hic v Hv)). cbn [Rbind].
      rewrite (aget_farr _ _ _ _ (Hbil (f v) (Hmx v Hv))). cbn [Rbind].
      set (m := upto f n (f v) - nb (fun w => bool_decide (n - k <= w /\ f w = f v)) n).
      assert (m = rank f n v + 1) as Em.
      { unfold m, rank, upto.
        rewrite (nb_add (fun w => bool_decide (n - k <= w /\ f w = f v)) (fun w => bool_decide (f w < f v \/ (f w = f v /\ w <= v)))
          (fun w => bool_decide (f w <= f v))).
        2:{ intros x Hx. repeat case_bool_decide; lia. }
        assert (nb (fun w => bool_decide (f w < f v \/ (f w = f v /\ w <= v))) n =
                nb (fun w => bool_decide (f w < f v \/ (f w = f v /\ w < v))) n + 1) as ->; [|lia].
        replace 1 with (nb (fun w => bool_decide (w = v)) n).
        - apply nb_add. intros x Hx. destruct (decide (x = v)) as [Hxv|]; [rewrite !Hxv|]; repeat case_bool_decide; lia.
        - clear - Hv. generalize dependent v. intros v. induction n as [|n' IH]; intros Hv; [lia|]. simpl.
          destruct (decide (n' = v)) as [->|].
          + rewrite bool_decide_eq_true_2 by done. rewrite nb_none; [done|]. intros x Hx. apply bool_decide_eq_false. lia.
          + rewrite bool_decide_eq_false_2 by lia. rewrite IH; lia. }
      destruct (decide (m = 0)); [lia|].
      rewrite aset_farr by (specialize (Hmx v Hv); lia). cbn [Rbind].
      pose proof (rank_lt f n v Hv) as Hr.
      rewrite aset_cells by lia. cbn [Rbind]. replace (m - 1) with (rank f n v) by lia.
      assert (forall vi1, (if mi then exists vic, vi1 = Some (Arr b3 vic) /\ length vic = n /\
           (forall u, u < n -> n - S k <= u -> vic !! u = Some (Some (rank f n u))) else vi1 = vi0) ->
        Rsat B (Ok (Some (Arr b2 (<[rank f n v:=Some v]> svc)), vi1, farr b4 (<[f v:=rank f n v]> bil)))
          (fun '(sv, vi, bi) => exists svc bil, sv = Some (Arr b2 svc) /\ bi = farr b4 bil /\
       length svc = n /\ (forall u, u < n -> n - S k <= u -> svc !! rank f n u = Some (Some u)) /\
       length bil = mx + 1 /\
       (forall c, c <= mx -> bil !! c = Some (upto f n c - nb (fun w => bool_decide (n - S k <= w /\ f w = c)) n)) /\
       (if mi then exists vic, vi = Some (Arr b3 vic) /\ length vic = n /\
           (forall u, u < n -> n - S k <= u -> vic !! u = Some (Some (rank f n u)))
        else vi = vi0))) as Hfin.
      { intros vi1 Hvi1. simpl. eexists _, _. split; [done|]. split; [done|].
        rewrite !insert_length. split; [done|]. split.
        { intros u Hu Hku. rewrite lookup_insert_dec by lia.
          destruct (decide (rank f n v = rank f n u)) as [E|Hne].
          - apply rank_inj in E; [|done|done]. by subst.
          - apply Hsv; [done|]. assert (u <> v) by congruence. lia. }
        split; [done|]. split; [|done].
        intros c Hc. rewrite lookup_insert_dec by (specialize (Hmx v Hv); lia).
        destruct (decide (f v = c)) as [<-|Hne].
        - f_equal. assert (nb (fun w => bool_decide (n - S k <= w /\ f w = f v)) n =
             nb (fun w => bool_decide (n - k <= w /\ f w = f v)) n + 1) as ->; [|unfold m in Em; lia].
          replace 1 with (nb (fun w => bool_decide (w = v)) n).
          + apply nb_add. intros x Hx. destruct (decide (x = v)) as [Hxv|]; [rewrite !Hxv|]; repeat case_bool_decide; lia.
          + clear - Hv. generalize dependent v. intros v. induction n as [|n' IH]; intros Hv; [lia|]. simpl.
            destruct (decide (n' = v)) as [->|].
            * rewrite bool_decide_eq_true_2 by done. rewrite nb_none; [done|]. intros x Hx. apply bool_decide_eq_false. lia.
            * rewrite bool_decide_eq_false_2 by lia. rewrite IH; lia.
        - rewrite Hbil by done. f_equal. f_equal. apply nb_ext. intros x Hx. apply bool_decide_ext.
          split; intros [? ?]; split; try done; try lia. assert (x <> v) by congruence. lia. }
      destruct mi.
      * destruct Hvi as (vic & -> & Lvi & Hvi). rewrite aset_cells by lia. cbn [Rbind]. apply Hfin.
        eexists. split; [done|]. rewrite insert_length. split; [done|]. intros u Hu Hku.
        rewrite lookup_insert_dec by lia. destruct (decide (v = u)) as [->|]; [done|]. apply Hvi; lia.
      * cbn [Rbind]. by apply Hfin.
  - intros [[sv vi] bi1] (svc & bil & -> & -> & Lsv & Hsv & Lbil & Hbil & Hvi). simpl in *.
    assert (forall p, p < n -> exists u, u < n /\ rank f n u = p) as Honto.
    { apply inj_onto; [apply rank_lt|apply rank_inj]. }
    destruct (all_some svc) as [svl ->].
    { intros i Hi. destruct (Honto i) as (u & Hu & <-); [lia|]. exists u. apply Hsv; lia. }
    exists svl, bil. split; [done|]. split; [done|]. rewrite fmap_length in Lsv. split.
    { split; [done|]. intros u Hu. specialize (Hsv u Hu ltac:(lia)). rewrite list_lookup_fmap in Hsv.
      destruct (svl !! _); simpl in Hsv; congruence. }
    split; [done|]. split.
    { intros c b Hb. assert (c <= mx) as Hc by (apply lookup_lt_Some in Hb; lia).
      rewrite Hbil in Hb by done. injection Hb as <-. unfold upto, below.
      rewrite (nb_add (fun w => bool_decide (n - n <= w /\ f w = c)) (fun w => bool_decide (f w < c)) (fun w => bool_decide (f w <= c))); [lia|].
      intros x Hx. repeat case_bool_decide; lia. }
    destruct mi; [|done]. destruct Hvi as (vic & -> & Lvi & Hvi).
    destruct (all_some vic) as [vil ->]. { intros i Hi. eexists. apply Hvi; lia. }
    exists vil. rewrite fmap_length in Lvi. split; [done|]. split; [done|]. intros u Hu.
    specialize (Hvi u Hu ltac:(lia)). rewrite list_lookup_fmap in Hvi. destruct (vil !! u); simpl in Hvi; congruence.
Qed.

Definition sort_post (mi : bool) (rows : list (list nat)) (w : world)
    (r : ecode * sort_result) (w' : world) : Prop :=
  wle w w' /\ w_tick w' = w_tick w /\
  (r.1 = ER_OK -> own w' (so_blocks r.2) w /\ w_err w' = w_err w /\
     exists sv, sorted_list (icf rows) (length rows) sv /\
       if mi then exists b1 b2 b3 b4 ic vi bi, r.2 = mk_sort b1 b2 b3 b4 ic sv vi bi /\
           sort_inv (length rows) 0 ic sv vi bi /\ (forall u, u < length rows -> ic !! u = Some (icf rows u))
       else exists b, r.2 = Sort None (farr b sv) None None) /\
  (r.1 <> ER_OK -> r.1 = ER_NO_MEMORY /\ ~ no_fail w /\ own w' [] w /\ e_code (w_err w') = r.1).

Lemma Msat_sort_by_inwards B dg rows mi w :
  dg_rep cfg dg rows -> (forall v, v < length rows -> (N.of_nat (icf rows v) <= pi_max cfg)%N) ->
  Msat B (sort_by_inwards cfg dg mi) w (sort_post mi rows w).
Proof.
  intros H Hpi. unfold sort_by_inwards. rewrite (rep_n _ _ _ H).
  assert (forall so w1, wle w w1 -> w_tick w1 = w_tick w -> own w1 (so_blocks so) w -> ~ no_fail w ->
    forall l, Msat B (let* _ := free_sort_result so in
            let* ec := make_error ER_NO_MEMORY "src/nng_findseeds.c" l in Mret (ec, so)) w1 (sort_post mi rows w)) as Hfail.
  { intros so w1 L1 T1 O1 F l. apply Msat_bind. apply Msat_free_sort; [blk|]. intros w2 L2 C2 E2 T2.
    apply Msat_bind. apply Msat_make_error__. intros w3 L3 O3 E3 T3. apply Msat_ret.
    split; [eauto|]. split; [congruence|]. split; [done|]. intros _. split; [done|]. split; [done|].
    split; [blk|]. by rewrite E3. }
  apply Msat_bind, Msat_calloc_arr.
  { intros w1 L1 O1 E1 T1 F1. apply Msat_bind, Msat_malloc_arr.
    - intros w2 L2 O2 E2 T2 F2. rewrite decide_True by auto. apply Hfail; [eauto|congruence|unfold so_blocks; blk|done].
    - intros w2 b2 L2 O2 E2 T2. rewrite decide_True by auto. apply Hfail; [eauto|congruence|unfold so_blocks; blk|done]. }
  intros w1 b1 L1 O1 E1 T1. apply Msat_bind, Msat_malloc_arr.
  { intros w2 L2 O2 E2 T2 F2. rewrite decide_True by auto. apply Hfail; [eauto|congruence|unfold so_blocks; blk|].
    intros F. apply F2. by eapply no_fail_wle. }
  intros w2 b2 L2 O2 E2 T2. rewrite decide_False by (intros [|]; discriminate).
  apply Msat_bind, Msat_lift. rewrite (rep_tail_get _ _ _ _ H) by done. cbn [Rbind].
  rewrite offs_all by done. rewrite replicate_farr.
  apply Rsat_bind. eapply Rsat_mono; [by apply count_sat|]. intros p (ic & -> & Lic & Hic).
  apply Rsat_bind. eapply Rsat_mono; [by apply max_sat|]. intros mx Hmx. simpl.
  apply Msat_bind, Msat_calloc_arr.
  { intros w3 L3 O3 E3 T3 F3. assert (~ no_fail w) as F. { intros F. apply F3. eapply no_fail_wle; eauto. }
    apply Msat_bind, Msat_malloc_arr.
    - intros w4 L4 O4 E4 T4 F4. rewrite decide_True by auto. apply Msat_bind. apply Msat_free_arr; [blk|].
      intros w5 L5 O5 E5 T5. apply Hfail; [eauto|congruence|unfold so_blocks; blk|done].
    - intros w4 b4 L4 O4 E4 T4. rewrite decide_True by auto. apply Msat_bind. apply Msat_free_arr; [blk|].
      intros w5 L5 O5 E5 T5. apply Hfail; [eauto|congruence|unfold so_blocks; blk|done]. }
  intros w3 b3 L3 O3 E3 T3. apply Msat_bind, Msat_malloc_arr.
  { intros w4 L4 O4 E4 T4 F4. assert (~ no_fail w) as F. { intros F. apply F4. eapply no_fail_wle; eauto. }
    rewrite decide_True by auto. apply Msat_bind. apply Msat_free_arr; [blk|].
    intros w5 L5 O5 E5 T5. apply Hfail; [eauto|congruence|unfold so_blocks; blk|done]. }
  intros w4 b4 L4 O4 E4 T4. rewrite decide_False by (intros [|]; discriminate).
  apply Msat_bind, Msat_lift. rewrite replicate_farr. eapply Rsat_mono; [by apply buckets_sat|].
  intros p (bi & -> & Lbi & Hbi). apply Msat_bind, Msat_free_arr; [blk|]. intros w5 L5 O5 E5 T5.
  apply Msat_bind.
  apply Msat_mono with (fun vi w6 => wle w5 w6 /\ w_err w6 = w_err w5 /\ w_tick w6 = w_tick w5 /\
     own w6 (arr_blk vi) w5 /\
     (if mi then (vi = None /\ ~ no_fail w5) \/ exists b5, vi = Some (Arr b5 (fresh nat (length rows))) else vi = None)).
  { destruct mi.
    - apply Msat_malloc_arr.
      + intros w6 L6 O6 E6 T6 F6. splits; auto.
      + intros w6 b6 L6 O6 E6 T6. splits; auto. right. eauto.
    - apply Msat_ret. splits; auto. blk. }
  intros vi w6 (L6 & E6 & T6 & O6 & Hvi).
  destruct (decide (mi = true /\ vi = None)) as [[-> ->]|Hok].
  { destruct Hvi as [[_ F6]|[b5 ?]]; [|discriminate]. apply Hfail; [eauto 8|congruence|unfold so_blocks; blk|].
    intros F. apply F6. eapply no_fail_wle; [exact F|eauto 8]. }
  assert (exists b5, mi = true -> vi = Some (Arr b5 (fresh nat (length rows)))) as [b5 Hvi5].
  { destruct mi; [|by exists 0]. destruct Hvi as [[? _]|[b5 ?]]; [|by exists b5]. exfalso. by apply Hok. }
  apply Msat_bind, Msat_lift. eapply Rsat_mono; [by apply (place_sat B mi b1 b2 b5 b4 ic bi (icf rows) (length rows) mx vi)|].
  intros [[sv vi'] bi'] (svl & bil & -> & -> & Hsl & Lbil & Hbil & Hv).
  assert (wle w w6) as L by eauto 8.
  destruct mi.
  - destruct Hv as (vil & -> & Lvil & Hvil). apply Msat_ret. split; [done|]. split; [congruence|]. simpl. split; [|done].
    intros _. split; [unfold so_blocks; destruct Hvi as [[-> _]|[b' ->]]; [exfalso; by apply Hok|]; specialize (Hvi5 eq_refl); injection Hvi5 as ->; blk|].
    split; [congruence|]. exists svl. split; [done|]. exists b1, b2, b5, b4, ic, vil, bil. split; [done|]. split; [|done].
    eapply sorted_list_inv; eauto. intros u Hu. specialize (Hmx u Hu). lia.
  - subst vi. subst vi'. apply Msat_bind, Msat_free_arr; [blk|]. intros w7 L7 O7 E7 T7.
    apply Msat_bind, Msat_free_arr; [blk|]. intros w8 L8 O8 E8 T8. apply Msat_ret.
    split; [eauto|]. split; [congruence|]. simpl. split; [|done]. intros _. split; [unfold so_blocks; blk|].
    split; [congruence|]. exists svl. split; [done|]. by exists b2.
Qed.
End Make.
