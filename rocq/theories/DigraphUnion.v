(** Functional correctness of union and adjacency product
    (src/digraph_operations.c 89-144, 240-296, 303-506). *)

From stdpp Require Import prelude list sorting.
From Coq Require Import NArith ZArith.
From Verif Require Import Base World Mem Digraph DigraphRep DigraphOps.

(** Elements of [l] that are not in [seen], first occurrences only. *)
Fixpoint dd (seen l : list nat) : list nat :=
  match l with
  | [] => []
  | x :: l' => if decide (x ∈ seen) then dd seen l' else x :: dd (x :: seen) l'
  end.

Lemma dd_ext s1 s2 l : (forall x, x ∈ s1 <-> x ∈ s2) -> dd s1 l = dd s2 l.
Proof.
  revert s1 s2. induction l as [|x l IH]; intros s1 s2 H; simpl; auto.
  destruct (decide (x ∈ s1)), (decide (x ∈ s2)); try (exfalso; naive_solver).
  - auto.
  - f_equal. apply IH. intros y. rewrite !elem_of_cons, H. tauto.
Qed.

Lemma dd_app s l1 l2 : dd s (l1 ++ l2) = dd s l1 ++ dd (l1 ++ s) l2.
Proof.
  revert s. induction l1 as [|x l1 IH]; intros s; simpl; auto.
  case_decide.
  - rewrite IH. f_equal. apply dd_ext. intros y. rewrite elem_of_cons, !elem_of_app. naive_solver.
  - simpl. f_equal. rewrite IH. f_equal. apply dd_ext. intros y.
    rewrite !elem_of_cons, !elem_of_app, elem_of_cons. tauto.
Qed.

Lemma dd_length s l : length (dd s l) <= length l.
Proof. revert s. induction l; intros s; simpl; [lia|]. case_decide; simpl; [specialize (IHl s)|specialize (IHl (a :: s))]; lia. Qed.

Lemma elem_of_dd s l x : x ∈ dd s l <-> x ∈ l /\ x ∉ s.
Proof.
  revert s. induction l as [|y l IH]; intros s; simpl.
  - split; [by intros ?%elem_of_nil | by intros [?%elem_of_nil _]].
  - case_decide; rewrite ?elem_of_cons, IH, ?elem_of_cons; [naive_solver|].
    destruct (decide (x = y)); naive_solver.
Qed.

Lemma NoDup_dd s l : NoDup (dd s l).
Proof.
  revert s. induction l as [|y l IH]; intros s; simpl; [constructor|].
  case_decide; auto. constructor; auto. rewrite elem_of_dd. intros [_ H']. apply H'. left.
Qed.

Lemma dd_nodup s l : NoDup l -> (forall x, x ∈ l -> x ∉ s) -> dd s l = l.
Proof.
  revert s. induction l as [|y l IH]; intros s Hn Hs; simpl; auto.
  apply NoDup_cons in Hn as [Hy Hn]. rewrite decide_False by (apply Hs; left).
  f_equal. apply IH; auto. intros x Hx. rewrite elem_of_cons. intros [->|Hx']; [auto|].
  eapply Hs; [right|]; eauto.
Qed.

Definition row (rows : list (list nat)) (v : nat) : list nat := default [] (rows !! v).

Lemma row_lookup rows v : v < length rows -> rows !! v = Some (row rows v).
Proof. intros H. unfold row. destruct (lookup_lt_is_Some_2 rows v H) as [r ->]. reflexivity. Qed.

Lemma row_seq f n v : v < n -> row (f <$> seq 0 n) v = f v.
Proof.
  intros H. unfold row. rewrite list_lookup_fmap, lookup_seq_lt by lia. reflexivity.
Qed.

Lemma rows_seq (rows : list (list nat)) : rows = row rows <$> seq 0 (length rows).
Proof.
  apply list_eq. intros i. rewrite list_lookup_fmap.
  destruct (decide (i < length rows)).
  - rewrite lookup_seq_lt by lia. simpl. by apply row_lookup.
  - rewrite lookup_ge_None_2 by lia. rewrite lookup_seq_ge by lia. reflexivity.
Qed.

Lemma foldR_concat {A S} (f : A -> S -> R S) s ls :
  foldR (fun l s => foldR f s l) s ls = foldR f s (concat ls).
Proof.
  revert s. induction ls as [|l ls IH]; intros s; simpl; auto.
  rewrite foldR_app. destruct (foldR f s l); simpl; auto.
Qed.

Lemma foldR_ext_in {A S} (f g : A -> S -> R S) s l :
  (forall x s, x ∈ l -> f x s = g x s) -> foldR f s l = foldR g s l.
Proof.
  revert s. induction l as [|x l IH]; intros s H; simpl; auto.
  rewrite H by left. destruct (g x s); simpl; auto. apply IH. intros. apply H. by right.
Qed.

Lemma foldR_fmap {A C S} (f : C -> S -> R S) (g : A -> C) s l :
  foldR f s (g <$> l) = foldR (fun x s => f (g x) s) s l.
Proof. revert s. induction l as [|x l IH]; intros s; simpl; auto. destruct (f (g x) s); simpl; auto. Qed.

(** ** Marker arrays *)

Definition mk_ok (n : nat) (mk : markers) (v : nat) (seen : list nat) : Prop :=
  length mk = n /\
  forall u, u < n -> exists m, mk !! u = Some (Some m) /\ (m = Some v <-> u ∈ seen).

(** All markers are unset or vertices satisfying [P]. *)
Definition mk_in (n : nat) (mk : markers) (P : nat -> Prop) : Prop :=
  length mk = n /\
  forall u, u < n -> exists m, mk !! u = Some (Some m) /\ (forall v, m = Some v -> P v).

Lemma mk_in_ok n mk (P : nat -> Prop) v : mk_in n mk P -> ~ P v -> mk_ok n mk v [].
Proof.
  intros [Hl H] Hv. split; auto. intros u Hu. destruct (H u Hu) as (m & E & Hm).
  exists m. split; auto. rewrite elem_of_nil. split; [|tauto]. intros ->. by apply Hv, Hm.
Qed.

Lemma mk_ok_set n mk v seen u : mk_ok n mk v seen -> u < n ->
  mk_ok n (<[u := Some (Some v)]> mk) v (u :: seen).
Proof.
  intros [Hl H] Hu. split; [by rewrite insert_length|]. intros u' Hu'.
  destruct (decide (u = u')) as [<-|Hne].
  - exists (Some v). rewrite list_lookup_insert by lia. split; auto.
    split; [intros _; left|auto].
  - rewrite list_lookup_insert_ne by auto. destruct (H u' Hu') as (m & E & Hm).
    exists m. split; auto. rewrite elem_of_cons, Hm. split; [auto|]. intros [->|?]; [congruence|auto].
Qed.

Lemma mk_in_set n mk (P : nat -> Prop) u v : mk_in n mk P -> P v -> mk_in n (<[u := Some (Some v)]> mk) P.
Proof.
  intros [Hl H] Hv. split; [by rewrite insert_length|]. intros u' Hu'.
  destruct (decide (u = u')) as [<-|Hne].
  - exists (Some v). rewrite list_lookup_insert by lia. split; auto. congruence.
  - rewrite list_lookup_insert_ne by auto. auto.
Qed.

Lemma mk_in_mono n mk (P Q : nat -> Prop) : mk_in n mk P -> (forall v, P v -> Q v) -> mk_in n mk Q.
Proof.
  intros [Hl H] HPQ. split; auto. intros u Hu. destruct (H u Hu) as (m & E & Hm). eauto.
Qed.

Lemma reset_markers_sat B n mk : length mk = n ->
  Rsat B (reset_markers n mk) (fun mk' => mk_in n mk' (fun _ => False)).
Proof.
  intros Hl. unfold reset_markers.
  apply (forR_sat0 B (fun j mk => length mk = n /\ forall u, u < j -> mk !! u = Some (Some None))).
  - split; auto. lia.
  - intros j s Hj [Hls Hs]. apply Rsat_cset; [lia|]. split; [by rewrite insert_length|].
    intros u Hu. destruct (decide (u = j)) as [->|Hne].
    + by rewrite list_lookup_insert by lia.
    + rewrite list_lookup_insert_ne by auto. apply Hs. lia.
  - intros s [Hls Hs]. split; auto. intros u Hu. exists None. split; auto. discriminate.
Qed.

(** Output buffer [oh] of capacity [cap] that holds [out] so far. *)
Definition out_rep (hb : list nat) (cap : nat) (oh : option (arr nat)) (out : list nat) : Prop :=
  arr_blk oh = hb /\
  match oh with
  | None => cap = 0 /\ out = []
  | Some a => length (a_cells a) = cap /\ filled (a_cells a) out
  end.

Lemma out_rep_push B hb cap oh out x (P : option (arr nat) -> Prop) :
  out_rep hb cap oh out -> length out < cap ->
  (forall oh', out_rep hb cap oh' (out ++ [x]) -> P oh') ->
  Rsat B (aset oh (length out) x) P.
Proof.
  intros [Hb Ho] Hlt HP. destruct oh as [a|]; simpl in *.
  - destruct Ho as [Hl Hf]. rewrite cset_ok by lia. simpl. apply HP. split; [auto|]. simpl.
    split; [by rewrite insert_length|]. apply filled_snoc; auto. lia.
  - lia.
Qed.

Lemma mark_write_fold B hb cap n v (P : nat -> Prop) l : forall mk seen c oh out,
  mk_ok n mk v seen -> mk_in n mk P -> P v -> Forall (fun x => x < n) l ->
  out_rep hb cap oh out -> c = length out -> length (out ++ dd seen l) <= cap ->
  Rsat B (foldR (mark_write v) (mk, c, oh) l) (fun '(mk', c', oh') =>
    mk_ok n mk' v (l ++ seen) /\ mk_in n mk' P /\
    out_rep hb cap oh' (out ++ dd seen l) /\ c' = length (out ++ dd seen l)).
Proof.
  induction l as [|x l IH]; intros mk seen c oh out Hmk Hin Hv Hl Ho Hc Hcap; simpl in *.
  { rewrite app_nil_r in *. auto. }
  apply Forall_cons in Hl as [Hx Hl]. pose proof Hmk as [Hml Hm].
  destruct (Hm x Hx) as (m & Em & Hms).
  apply Rsat_bind, Rsat_bind. eapply Rsat_cget; [exact Em|].
  destruct (decide (m <> Some v)) as [Hd|Hd].
  - rewrite decide_False in * by (rewrite <- Hms; auto).
    rewrite app_length in Hcap. simpl in Hcap.
    apply Rsat_bind. apply Rsat_cset; [lia|]. apply Rsat_bind. subst c.
    eapply out_rep_push; [exact Ho|lia|]. intros oh' Ho'. simpl.
    eapply Rsat_mono; [apply (IH _ (x :: seen) _ oh' (out ++ [x]))|]; auto.
    + by apply mk_ok_set.
    + by apply mk_in_set.
    + rewrite app_length. simpl. lia.
    + rewrite !app_length. simpl. lia.
    + intros [[mk' c'] oh'']. rewrite <- app_assoc. simpl. intros (H1 & H2 & H3 & H4).
      splits; auto. destruct H1 as [H1 H1']. split; auto. intros u Hu.
      destruct (H1' u Hu) as (m' & E' & Hm'). exists m'. split; auto. rewrite Hm'.
      rewrite elem_of_cons, !elem_of_app, elem_of_cons. tauto.
  - assert (m = Some v) as -> by (destruct (decide (m = Some v)); tauto).
    rewrite decide_True in * by (by apply Hms). simpl.
    eapply Rsat_mono; [apply IH; eauto|].
    intros [[mk' c'] oh'']. intros (H1 & H2 & H3 & H4). splits; auto.
    destruct H1 as [H1 H1']. split; auto. intros u Hu.
    destruct (H1' u Hu) as (m' & E' & Hm'). exists m'. split; auto. rewrite Hm'.
    rewrite elem_of_cons, !elem_of_app. assert (x ∈ seen) by (by apply Hms). naive_solver.
Qed.

Lemma mark_count_fold B n v (P : nat -> Prop) l : forall mk seen c,
  mk_ok n mk v seen -> mk_in n mk P -> P v -> Forall (fun x => x < n) l ->
  Rsat B (foldR (mark_count v) (mk, c) l) (fun '(mk', c') =>
    mk_ok n mk' v (l ++ seen) /\ mk_in n mk' P /\ c' = c + length (dd seen l)).
Proof.
  induction l as [|x l IH]; intros mk seen c Hmk Hin Hv Hl; simpl in *.
  { splits; auto. }
  apply Forall_cons in Hl as [Hx Hl]. pose proof Hmk as [Hml Hm].
  destruct (Hm x Hx) as (m & Em & Hms).
  apply Rsat_bind, Rsat_bind. eapply Rsat_cget; [exact Em|].
  destruct (decide (m <> Some v)) as [Hd|Hd].
  - rewrite decide_False in * by (rewrite <- Hms; auto).
    apply Rsat_bind. apply Rsat_cset; [lia|]. simpl.
    eapply Rsat_mono; [apply (IH _ (x :: seen))|]; auto.
    + by apply mk_ok_set.
    + by apply mk_in_set.
    + intros [mk' c']. intros (H1 & H2 & H3).
      splits; auto; [|lia]. destruct H1 as [H1 H1']. split; auto. intros u Hu.
      destruct (H1' u Hu) as (m' & E' & Hm'). exists m'. split; auto. rewrite Hm'.
      rewrite elem_of_cons, !elem_of_app, elem_of_cons. tauto.
  - assert (m = Some v) as -> by (destruct (decide (m = Some v)); tauto).
    rewrite decide_True in * by (by apply Hms). simpl.
    eapply Rsat_mono; [apply IH; eauto|].
    intros [mk' c']. intros (H1 & H2 & H3). splits; auto.
    destruct H1 as [H1 H1']. split; auto. intros u Hu.
    destruct (H1' u Hu) as (m' & E' & Hm'). exists m'. split; auto. rewrite Hm'.
    rewrite elem_of_cons, !elem_of_app. assert (x ∈ seen) by (by apply Hms). naive_solver.
Qed.

(** ** Writing rows one after the other *)

(** [f v] is the content of row [v]; [tail_part] the offsets of the first rows. *)
Definition tail_upto (tb : nat) (n : nat) (f : nat -> list nat) (v : nat) (ot : option (arr nat)) : Prop :=
  exists c, ot = Some (Arr tb c) /\ length c = S n /\
    forall k, k <= v -> c !! k = Some (Some (offs (f <$> seq 0 n) k)).

Definition outf (f : nat -> list nat) (v : nat) : list nat := concat (f <$> seq 0 v).

Lemma outf_S f v : outf f (S v) = outf f v ++ f v.
Proof.
  unfold outf. rewrite seq_S, fmap_app, concat_app. simpl. by rewrite app_nil_r.
Qed.

Lemma outf_offs f n v : v <= n -> offs (f <$> seq 0 n) v = length (outf f v).
Proof.
  intros H. unfold offs, outf. rewrite <- fmap_take. replace n with (v + (n - v)) by lia.
  rewrite seq_app, take_app_alt by (by rewrite seq_length). reflexivity.
Qed.

Lemma outf_mono f v n : v <= n -> length (outf f v) <= length (outf f n).
Proof.
  intros H. rewrite <- (outf_offs f n v), <- (outf_offs f n n) by lia. apply offs_mono. lia.
Qed.

Section Union.
Context (cfg : config).
Notation dg_rep := (dg_rep cfg).

Lemma tail_upto_push B tb n f v ot x (P : option (arr nat) -> Prop) :
  tail_upto tb n f v ot -> v < n -> x = length (outf f (S v)) ->
  (forall ot', tail_upto tb n f (S v) ot' -> P ot') ->
  Rsat B (aset ot (v + 1) x) P.
Proof.
  intros (c & -> & Hl & Hc) Hv -> HP. simpl. rewrite cset_ok by lia. simpl. apply HP.
  eexists. split; [reflexivity|]. split; [by rewrite insert_length|].
  intros k Hk. destruct (decide (k = S v)) as [->|Hne].
  - rewrite Nat.add_1_r, list_lookup_insert by lia. by rewrite outf_offs by lia.
  - rewrite list_lookup_insert_ne by lia. apply Hc. lia.
Qed.

(** Row of the union: arcs of all graphs in order, duplicates (and, unless
    kept, the self-loop) removed. *)
Definition union_row (keep : bool) (rss : list (list (list nat))) (v : nat) : list nat :=
  dd (if keep then [] else [v]) (concat ((fun rs => row rs v) <$> rss)).

Definition tail_kept (tails : option (list nat)) (v : nat) : bool :=
  match tails with None => true | Some ts => bool_decide (v ∈ ts) end.

Definition union_rowk (keep : bool) (tails : option (list nat)) (rss : list (list (list nat))) (v : nat) : list nat :=
  if tail_kept tails v then union_row keep rss v else [].

Definition union_rows (keep : bool) (tails : option (list nat)) (rss : list (list (list nat))) (n : nat) : list (list nat) :=
  union_rowk keep tails rss <$> seq 0 n.

(** Graphs [dgs] with [n] vertices each, represented by [rss]. *)
Definition dgs_rep (dgs : list digraph) (rss : list (list (list nat))) (n : nat) : Prop :=
  Forall2 (fun dg rs => dg_rep dg rs /\ length rs = n) dgs rss.

Lemma union_row_fold {S} dgs rss n v (s : S) f : dgs_rep dgs rss n -> v < n ->
  foldR (fun dg s => for_arcs dg v s f) s dgs = foldR f s (concat ((fun rs => row rs v) <$> rss)).
Proof.
  intros H Hv. rewrite <- foldR_concat. revert s. induction H as [|dg rs dgs rss [Hr Hl] H IH]; intros s; simpl; auto.
  rewrite (for_arcs_fold cfg dg rs v (row rs v)); auto.
  - destruct (foldR f s (row rs v)); simpl; auto.
  - apply row_lookup. lia.
Qed.

Lemma union_arcs_lt dgs rss n v : dgs_rep dgs rss n -> v < n ->
  Forall (fun x => x < n) (concat ((fun rs => row rs v) <$> rss)).
Proof.
  intros H Hv. induction H as [|dg rs dgs rss [Hr Hl] H IH]; simpl; [constructor|].
  apply Forall_app. split; auto. apply Forall_forall. intros x Hx.
  rewrite <- Hl. eapply (rep_lookup_lt cfg _ _ v); eauto. apply row_lookup. lia.
Qed.

Lemma union_row_write B hb cap n dgs rss keep v mk c oh out :
  dgs_rep dgs rss n -> v < n ->
  mk_in n mk (fun u => u < v) -> out_rep hb cap oh out -> c = length out ->
  length (out ++ union_row keep rss v) <= cap ->
  Rsat B (let! mk := (if keep then Ok mk else cset mk v (Some v)) in
          foldR (fun dg s => for_arcs dg v s (mark_write v)) (mk, c, oh) dgs)
    (fun '(mk', c', oh') =>
      mk_in n mk' (fun u => u < S v) /\
      out_rep hb cap oh' (out ++ union_row keep rss v) /\ c' = length (out ++ union_row keep rss v)).
Proof.
  intros Hd Hv Hmk Ho Hc Hcap.
  assert (mk_ok n mk v []) as Hok by (eapply mk_in_ok; [exact Hmk|simpl; lia]).
  assert (mk_in n mk (fun u => u < S v)) as Hin by (eapply mk_in_mono; [exact Hmk|simpl; lia]).
  pose proof (union_arcs_lt _ _ _ _ Hd Hv) as Hlt. unfold union_row in *.
  destruct keep; simpl.
  - rewrite (union_row_fold _ _ _ _ _ _ Hd Hv).
    eapply Rsat_mono; [eapply (mark_write_fold B hb cap n v (fun u => u < S v)); eauto; lia|].
    intros [[mk' c'] oh'] (H1 & H2 & H3 & H4). auto.
  - pose proof Hmk as [Hl _]. apply Rsat_bind. apply Rsat_cset; [lia|].
    rewrite (union_row_fold _ _ _ _ _ _ Hd Hv).
    eapply Rsat_mono; [eapply (mark_write_fold B hb cap n v (fun u => u < S v) _ _ [v]); eauto|].
    + by apply mk_ok_set.
    + apply mk_in_set; auto; lia.
    + intros [[mk' c'] oh'] (H1 & H2 & H3 & H4). auto.
Qed.

Lemma union_row_count B n dgs rss (keep : bool) v (mk : markers) c (P : nat -> Prop) :
  dgs_rep dgs rss n -> v < n ->
  mk_in n mk P -> ~ P v ->
  Rsat B (let! mk := (if keep then Ok mk else cset mk v (Some v)) in
          foldR (fun dg s => for_arcs dg v s (mark_count v)) (mk, c) dgs)
    (fun '(mk', c') =>
      mk_in n mk' (fun u => P u \/ u = v) /\ c' = c + length (union_row keep rss v)).
Proof.
  intros Hd Hv Hmk HP.
  assert (mk_ok n mk v []) as Hok by (eapply mk_in_ok; [exact Hmk|auto]).
  assert (mk_in n mk (fun u => P u \/ u = v)) as Hin by (eapply mk_in_mono; [exact Hmk|simpl; auto]).
  pose proof (union_arcs_lt _ _ _ _ Hd Hv) as Hlt. unfold union_row in *.
  destruct keep; simpl.
  - rewrite (union_row_fold _ _ _ _ _ _ Hd Hv).
    eapply Rsat_mono; [eapply (mark_count_fold B n v (fun u => P u \/ u = v)); eauto|].
    intros [mk' c'] (H1 & H2 & H3). auto.
  - pose proof Hmk as [Hl _]. apply Rsat_bind. apply Rsat_cset; [lia|].
    rewrite (union_row_fold _ _ _ _ _ _ Hd Hv).
    eapply Rsat_mono; [eapply (mark_count_fold B n v (fun u => P u \/ u = v) _ _ [v]); eauto|].
    + by apply mk_ok_set.
    + apply mk_in_set; auto; lia.
    + intros [mk' c'] (H1 & H2 & H3). auto.
Qed.

(** Sorted selection of tails below [n]. *)
Definition tails_ok (n : nat) (tails : option (list nat)) : Prop :=
  match tails with None => True | Some ts => StronglySorted lt ts /\ Forall (fun t => t < n) ts end.

Lemma concat_select (f : nat -> list nat) ts n :
  StronglySorted lt ts -> Forall (fun t => t < n) ts ->
  concat ((fun v => if bool_decide (v ∈ ts) then f v else []) <$> seq 0 n) = concat (f <$> ts).
Proof.
  intros Hs Hlt.
  assert (forall m k ts, StronglySorted lt ts -> Forall (fun t => k <= t < k + m) ts ->
    concat ((fun v => if bool_decide (v ∈ ts) then f v else []) <$> seq k m) = concat (f <$> ts)) as G.
  { clear. induction m as [|m IH]; intros k ts Hs Hlt; simpl.
    - destruct ts as [|t ts]; auto. apply Forall_cons in Hlt as [? _]. lia.
    - destruct ts as [|t ts].
      + rewrite (bool_decide_false (k ∈ [])) by (by intros ?%elem_of_nil). simpl.
        apply (IH (S k) []); constructor.
      + apply Forall_cons in Hlt as [Ht Hlt]. inversion Hs as [|? ? Hs' Hlt']; subst.
        destruct (decide (k = t)) as [->|Hne].
        * rewrite bool_decide_true by left. simpl. f_equal.
          etransitivity; [|apply (IH (S t) ts); auto].
          -- f_equal. apply list_fmap_ext. intros i x Hx. apply lookup_seq in Hx as [-> Hi].
             erewrite bool_decide_ext; [reflexivity|]. rewrite elem_of_cons. split; [|auto].
             intros [?|?]; [lia|auto].
          -- eapply Forall_impl; [apply Forall_and; split; [exact Hlt|exact Hlt']|]. simpl. intros; lia.
        * rewrite bool_decide_false.
          -- simpl. apply (IH (S k) (t :: ts)); auto. constructor; [lia|].
             eapply Forall_impl; [apply Forall_and; split; [exact Hlt|exact Hlt']|]. simpl. intros; lia.
          -- rewrite elem_of_cons. intros [?|Hin]; [lia|]. eapply Forall_forall in Hlt'; eauto. lia. }
  apply (G n 0); auto. eapply Forall_impl; [exact Hlt|]. simpl; lia.
Qed.

Lemma do_union_count_sat B n dgs rss keep tails mk :
  dgs_rep dgs rss n -> dgs <> [] -> tails_ok n tails -> length mk = n ->
  Rsat B (do_union_count dgs mk tails keep) (fun '(mk', c) =>
    length mk' = n /\ c = length (concat (union_rows keep tails rss n))).
Proof.
  intros Hd Hne Hts Hmk. unfold do_union_count.
  destruct dgs as [|dg0 dgs]; [congruence|].
  pose proof Hd as Hd0. apply Forall2_cons_inv_l in Hd0 as (rs0 & rss' & [Hr0 Hl0] & Hd' & ->).
  simpl. rewrite (rep_n cfg _ _ Hr0), Hl0. apply Rsat_bind.
  eapply Rsat_mono; [by apply reset_markers_sat|]. simpl. intros mk1 Hmk1.
  unfold union_rows. destruct tails as [ts|].
  - destruct Hts as [Hs Hlt]. unfold union_rowk, tail_kept.
    rewrite (concat_select (union_row keep (rs0 :: rss')) ts n Hs Hlt).
    eapply Rsat_mono.
    { apply (foldR_sat B (fun pre (s : markers * nat) => let '(mk, c) := s in
        mk_in n mk (fun u => u ∈ pre) /\ c = length (concat (union_row keep (rs0 :: rss') <$> pre)))).
      - simpl. split; [|auto]. eapply mk_in_mono; [exact Hmk1|]. simpl. tauto.
      - intros pre v post [mk2 c2] Eq [Hm2 ->].
        assert (v ∈ ts) by (rewrite Eq; set_solver).
        eapply Rsat_mono; [eapply (union_row_count B n (dg0 :: dgs) (rs0 :: rss') keep v mk2 _ (fun u => u ∈ pre)); eauto|].
        + eapply Forall_forall in Hlt; eauto.
        + intros Hin. rewrite Eq in Hs. apply elem_of_StronglySorted_app with (x1 := v) (x2 := v) in Hs; auto; [lia|left].
        + intros [mk3 c3] [Hm3 ->]. split.
          * eapply mk_in_mono; [exact Hm3|]. simpl. intros u. rewrite elem_of_app, elem_of_list_singleton. tauto.
          * rewrite fmap_app, concat_app. simpl. rewrite !app_length. simpl. lia. }
    intros [mk2 c2] [[Hl2 _] ->]. auto.
  - eapply (forR_sat0 B (fun v (s : markers * nat) => let '(mk, c) := s in
      mk_in n mk (fun u => u < v) /\ c = length (outf (union_rowk keep None (rs0 :: rss')) v))).
    + simpl. split; [|auto]. eapply mk_in_mono; [exact Hmk1|]. simpl. tauto.
    + intros v [mk2 c2] Hv [Hm2 ->].
      eapply Rsat_mono; [eapply (union_row_count B n (dg0 :: dgs) (rs0 :: rss') keep v mk2 _ (fun u => u < v)); eauto; lia|].
      intros [mk3 c3] [Hm3 ->]. split.
      * eapply mk_in_mono; [exact Hm3|]. simpl. lia.
      * rewrite outf_S, app_length. reflexivity.
    + intros [mk2 c2] [[Hl2 _] ->]. auto.
Qed.

Lemma do_union_write_sat B n dgs rss keep tails mk tb hb cap oh t0 :
  dgs_rep dgs rss n -> dgs <> [] -> tails_ok n tails -> length mk = n ->
  out_rep hb cap oh [] -> too_many_arcs cfg cap = false ->
  length (concat (union_rows keep tails rss n)) <= cap ->
  Rsat B (do_union_write cfg dgs mk tails keep (Some (Arr tb (replicate (n + 1) t0))) oh)
    (fun '(c, ot, oh') =>
      c = length (concat (union_rows keep tails rss n)) /\
      tail_upto tb n (union_rowk keep tails rss) n ot /\
      out_rep hb cap oh' (concat (union_rows keep tails rss n))).
Proof.
  intros Hd Hne Hts Hmk Ho Hai Hcap. unfold do_union_write.
  destruct dgs as [|dg0 dgs]; [congruence|].
  pose proof Hd as Hd0. apply Forall2_cons_inv_l in Hd0 as (rs0 & rss' & [Hr0 Hl0] & Hd' & ->).
  set (rss := rs0 :: rss') in *. set (f := union_rowk keep tails rss).
  assert (length (outf f n) <= cap) as Hcapf by exact Hcap.
  simpl. rewrite (rep_n cfg _ _ Hr0), Hl0. apply Rsat_bind.
  eapply Rsat_mono; [by apply reset_markers_sat|]. simpl. intros mk1 Hmk1.
  apply Rsat_bind. apply Rsat_bind. apply Rsat_cset; [rewrite replicate_length; lia|]. simpl.
  assert (tail_upto tb n f 0 (Some (Arr tb (<[0:=Some 0]> (replicate (n + 1) t0))))) as Ht0.
  { eexists. split; [reflexivity|]. rewrite insert_length, replicate_length. split; [lia|].
    intros k Hk. replace k with 0 by lia. rewrite list_lookup_insert; [reflexivity|].
    rewrite replicate_length. lia. }
  assert (mk_in n mk1 (fun u => u < 0)) as Hm0. { eapply mk_in_mono; [exact Hmk1|]. simpl. tauto. }
  assert (forall v, v < n -> f v = union_row keep rss v -> forall mk c oh,
    mk_in n mk (fun u => u < v) -> out_rep hb cap oh (outf f v) -> c = length (outf f v) ->
    Rsat B (let! mk := (if keep then Ok mk else cset mk v (Some v)) in
          foldR (fun dg s => for_arcs dg v s (mark_write v)) (mk, c, oh) (dg0 :: dgs))
     (fun '(mk', c', oh') => mk_in n mk' (fun u => u < S v) /\
        out_rep hb cap oh' (outf f (S v)) /\ c' = length (outf f (S v)))) as Hrow.
  { intros v Hv Hfv mk2 c2 oh2 Hm2 Ho2 Hc2. pose proof (outf_mono f (S v) n ltac:(lia)).
    rewrite outf_S, Hfv in *.
    eapply (union_row_write B hb cap n (dg0 :: dgs) rss keep v); eauto. lia. }
  assert (forall v, v < n -> wrapN (ai_max cfg) (length (outf f (S v))) = length (outf f (S v))) as Hwrap.
  { intros v Hv. apply too_many_arcs_wrap. eapply too_many_arcs_mono; [|exact Hai].
    pose proof (outf_mono f (S v) n ltac:(lia)). lia. }
  destruct tails as [ts|]; simpl in Hrow.
  - destruct Hts as [Hs Hlt].
    eapply Rsat_bind_mono.
    { eapply (forR_sat0 B (fun v s => let '(mk, c, oh, ot, next) := s in
        mk_in n mk (fun u => u < v) /\ out_rep hb cap oh (outf f v) /\ c = length (outf f v) /\
        tail_upto tb n f v ot /\
        exists pre, ts = pre ++ next /\ Forall (fun t => t < v) pre /\ Forall (fun t => v <= t) next)
        _ _ _ (fun s => let '(mk, c, oh, ot, next) := s in
        mk_in n mk (fun u => u < n) /\ out_rep hb cap oh (outf f n) /\ c = length (outf f n) /\
        tail_upto tb n f n ot)).
      - splits; auto. exists []. splits; auto. apply Forall_forall. intros; lia.
      - intros v [[[[mk2 c2] oh2] ot2] next] Hv (Hm2 & Ho2 & Hc2 & Ht2 & pre & Ets & Hpre & Hnext).
        assert (f v = if bool_decide (v ∈ ts) then union_row keep rss v else []) as Hf by reflexivity.
        assert (forall mk3 c3 oh3 next3 (Hm3 : mk_in n mk3 (fun u => u < S v))
           (Ho3 : out_rep hb cap oh3 (outf f (S v))) (Hc3 : c3 = length (outf f (S v)))
           (Hn3 : exists pre, ts = pre ++ next3 /\ Forall (fun t => t < S v) pre /\ Forall (fun t => S v <= t) next3),
           Rsat B (let! ot := aset ot2 (v + 1) (wrapN (ai_max cfg) c3) in Ok (mk3, c3, oh3, ot, next3))
             (fun s => let '(mk, c, oh, ot, next) := s in
                mk_in n mk (fun u => u < S v) /\ out_rep hb cap oh (outf f (S v)) /\ c = length (outf f (S v)) /\
                tail_upto tb n f (S v) ot /\
                exists pre, ts = pre ++ next /\ Forall (fun t => t < S v) pre /\ Forall (fun t => S v <= t) next)) as Hend.
        { intros. subst c3. rewrite Hwrap by lia. apply Rsat_bind.
          eapply tail_upto_push; eauto. intros ot' Hot'. simpl. splits; auto. }
        assert (v ∉ ts -> Rsat B (let! ot := aset ot2 (v + 1) (wrapN (ai_max cfg) c2) in Ok (mk2, c2, oh2, ot, next))
             (fun s => let '(mk, c, oh, ot, next) := s in
                mk_in n mk (fun u => u < S v) /\ out_rep hb cap oh (outf f (S v)) /\ c = length (outf f (S v)) /\
                tail_upto tb n f (S v) ot /\
                exists pre, ts = pre ++ next /\ Forall (fun t => t < S v) pre /\ Forall (fun t => S v <= t) next)) as Hskip.
        { intros Hnin. rewrite bool_decide_false in Hf by auto. apply Hend.
          - eapply mk_in_mono; [exact Hm2|]. simpl; lia.
          - by rewrite outf_S, Hf, app_nil_r.
          - by rewrite outf_S, Hf, app_nil_r.
          - exists pre. splits; auto. { eapply Forall_impl; [exact Hpre|]. simpl; lia. }
            apply Forall_forall. intros t Ht. eapply Forall_forall in Hnext; [|exact Ht].
            destruct (decide (t = v)) as [->|]; [|lia]. exfalso. apply Hnin. rewrite Ets. set_solver. }
        destruct next as [|t next'].
        + apply Hskip. rewrite Ets, app_nil_r. intros Hin. eapply Forall_forall in Hpre; eauto. lia.
        + destruct (decide (t = v)) as [Htv|Htv].
          * subst t. rewrite bool_decide_true in Hf by (rewrite Ets; set_solver).
            eapply Rsat_bind_mono; [apply Hrow; eauto|].
            intros [[mk3 c3] oh3] (Hm3 & Ho3 & Hc3). apply Hend; auto.
            exists (pre ++ [v]). splits.
            -- by rewrite <- app_assoc.
            -- apply Forall_app. split; [eapply Forall_impl; [exact Hpre|]; simpl; lia|]. constructor; [lia|constructor].
            -- rewrite Ets in Hs. apply Forall_forall. intros t Ht.
               assert (v < t); [|lia].
               apply StronglySorted_app_inv_r in Hs. inversion Hs as [|? ? Hs' Hlt']; subst.
               eapply Forall_forall in Hlt'; eauto.
          * apply Hskip. rewrite Ets. intros Hin. apply elem_of_app in Hin as [Hin|Hin].
            -- eapply Forall_forall in Hpre; eauto. lia.
            -- apply elem_of_cons in Hin as [?|Hin]; [congruence|].
               rewrite Ets in Hs. apply StronglySorted_app_inv_r in Hs.
               inversion Hs as [|? ? Hs' Hlt']; subst. eapply Forall_forall in Hlt'; [|exact Hin].
               apply Forall_cons in Hnext as [? _]. lia.
      - intros [[[[mk2 c2] oh2] ot2] next] (Hm2 & Ho2 & Hc2 & Ht2 & _). auto. }
    intros [[[[mk2 c2] oh2] ot2] next] (Hm2 & Ho2 & Hc2 & Ht2). simpl. destruct Hm2. splits; auto.
  - eapply Rsat_bind_mono.
    { eapply (forR_sat0 B (fun v s => let '(mk, c, oh, ot) := s in
        mk_in n mk (fun u => u < v) /\ out_rep hb cap oh (outf f v) /\ c = length (outf f v) /\
        tail_upto tb n f v ot)
        _ _ _ (fun s => let '(mk, c, oh, ot) := s in
        mk_in n mk (fun u => u < n) /\ out_rep hb cap oh (outf f n) /\ c = length (outf f n) /\
        tail_upto tb n f n ot)).
      - splits; auto.
      - intros v [[[mk2 c2] oh2] ot2] Hv (Hm2 & Ho2 & Hc2 & Ht2).
        eapply Rsat_bind_mono; [apply Hrow; eauto|].
        intros [[mk3 c3] oh3] (Hm3 & Ho3 & Hc3). subst c3. rewrite Hwrap by lia. apply Rsat_bind.
        eapply tail_upto_push; eauto. intros ot' Hot'. simpl. splits; auto.
      - auto. }
    intros [[[mk2 c2] oh2] ot2] (Hm2 & Ho2 & Hc2 & Ht2). simpl. destruct Hm2. splits; auto.
Qed.

(** A digraph assembled from finished tail and head arrays. *)
Lemma dg_rep_assemble n f tb hb cap oh ot :
  tail_upto tb n f n ot -> out_rep hb cap oh (outf f n) -> (cap = 0 <-> oh = None) ->
  (forall v, v < n -> Forall (fun x => x < n) (f v)) ->
  too_many_arcs cfg cap = false ->
  dg_rep (DG n cap oh ot) (f <$> seq 0 n) /\ dg_blocks (DG n cap oh ot) = hb ++ [tb].
Proof.
  intros (c & -> & Hl & Hc) [Hb Ho] Hcap Hf Hai. split.
  - assert (length (f <$> seq 0 n) = n) as Hn by (by rewrite fmap_length, seq_length).
    constructor; simpl; auto.
    + eexists _, _. split; [reflexivity|]. split; rewrite Hn; auto.
    + destruct oh as [a|].
      * destruct Ho as [Ho1 Ho2]. splits; auto. destruct cap; [|lia]. destruct Hcap as [Hc1 _]. by specialize (Hc1 eq_refl).
      * destruct Ho as [Ho1 Ho2]. auto.
    + rewrite Hn. apply Forall_lookup. intros i r Hr. apply list_lookup_fmap_inv in Hr as (v & -> & Hv).
      apply lookup_seq in Hv as [-> ?]. apply Hf. lia.
  - unfold dg_blocks. simpl. by rewrite Hb.
Qed.

Lemma union_row_lt dgs rss n keep tails v : dgs_rep dgs rss n -> v < n ->
  Forall (fun x => x < n) (union_rowk keep tails rss v).
Proof.
  intros Hd Hv. unfold union_rowk. destruct (tail_kept tails v); [|constructor].
  unfold union_row. apply Forall_forall. intros x Hx. apply elem_of_dd in Hx as [Hx _].
  pose proof (union_arcs_lt _ _ _ _ Hd Hv) as H. eapply Forall_forall in H; eauto.
Qed.

(** Outcome of an operation creating a digraph for [rows]; [greedy] is the
    size of the first storage request. *)
Definition new_post (rows : list (list nat)) (greedy : nat) (w : world)
    (r : ecode * digraph) (w' : world) : Prop :=
  wle w w' /\ w_tick w' = w_tick w /\
  (r.1 = ER_OK -> own w' (dg_blocks r.2) w /\ dg_rep r.2 rows /\ dg_max r.2 = length (concat rows) /\
     (w_err w' = w_err w \/ w_err w' = no_errst) /\
     (no_fail w -> too_many_arcs cfg greedy = false -> w_err w' = w_err w)) /\
  (r.1 <> ER_OK -> own w' [] w /\ e_code (w_err w') = r.1 /\
     ((r.1 = ER_NO_MEMORY /\ ~ no_fail w) \/
      (r.1 = ER_TOO_LARGE_PROBLEM /\ too_many_arcs cfg (length (concat rows)) = true))).

Lemma init_post_out t0 n m w r w' : init_post cfg t0 n m w r w' -> r.1 = ER_OK ->
  exists tb hb, dg_tail r.2 = Some (Arr tb (replicate (n + 1) t0)) /\
    out_rep hb m (dg_head r.2) [] /\ dg_blocks r.2 = hb ++ [tb] /\
    dg_n r.2 = n /\ dg_max r.2 = m /\ too_many_arcs cfg m = false /\ (m = 0 <-> dg_head r.2 = None) /\
    own w' (hb ++ [tb]) w.
Proof.
  intros (_ & _ & Hok & _) E. destruct (Hok E) as (Ho & _ & Hai & Hn & Hm & (tb & Ht) & Hh).
  exists tb. unfold dg_blocks in *. rewrite Ht in *. destruct (decide (m = 0)) as [Hz|Hz].
  - exists []. rewrite Hh in *. splits; auto; split; auto.
  - destruct Hh as [hb Hh]. exists [hb]. rewrite Hh in *. splits; auto.
    + split; [auto|]. simpl. unfold fresh. rewrite replicate_length. split; auto. apply filled_nil.
    + split; [lia|discriminate].
Qed.

Lemma greedy_union_sat B dgs rss n : dgs_rep dgs rss n ->
  Rsat B (foldR (fun dg acc => let! t := aget (dg_tail dg) n in Ok (acc + t)) 0 dgs)
    (fun g => g = sum_list (length <$> (@concat nat <$> rss))).
Proof.
  intros H. rewrite <- (Nat.add_0_l (sum_list _)). generalize 0 as a.
  induction H as [|dg rs dgs rss [Hr Hl] H IH]; intros a; simpl; [lia|].
  rewrite <- Hl at 1. rewrite (rep_tail_get cfg dg rs _ Hr) by lia. simpl.
  rewrite offs_all by lia. rewrite Nat.add_assoc. apply IH.
Qed.

Lemma sum_list_fmap_le {A} (f g : A -> nat) l : (forall x, x ∈ l -> f x <= g x) ->
  sum_list (f <$> l) <= sum_list (g <$> l).
Proof.
  induction l as [|x l IH]; intros H; csimpl; [lia|].
  pose proof (H x ltac:(left)). specialize (IH ltac:(intros; apply H; by right)). lia.
Qed.

Lemma length_concat_sum {A} (l : list (list A)) : length (concat l) = sum_list (length <$> l).
Proof. induction l; csimpl; [auto|]. rewrite app_length. lia. Qed.

Lemma sum_list_fmap_add {A} (f g : A -> nat) l :
  sum_list ((fun x => f x + g x) <$> l) = sum_list (f <$> l) + sum_list (g <$> l).
Proof. induction l; csimpl; lia. Qed.

Lemma sum_list_fmap_zero {A} (f : A -> nat) l : (forall x, f x = 0) -> sum_list (f <$> l) = 0.
Proof. intros H. induction l; csimpl; auto. rewrite H. auto. Qed.

Lemma union_rows_greedy dgs rss n keep tails : dgs_rep dgs rss n ->
  length (concat (union_rows keep tails rss n)) <= sum_list (length <$> (@concat nat <$> rss)).
Proof.
  intros H. unfold union_rows. rewrite length_concat_sum. rewrite <- list_fmap_compose.
  transitivity (sum_list ((fun v => length (concat ((fun rs => row rs v) <$> rss))) <$> seq 0 n)).
  - apply sum_list_fmap_le. intros v _. csimpl. unfold union_rowk. destruct (tail_kept tails v); csimpl; [|lia].
    apply dd_length.
  - induction H as [|dg rs dgs rss [Hr Hl] H IH].
    + csimpl. rewrite sum_list_fmap_zero; auto.
    + csimpl. etransitivity; [|apply Nat.add_le_mono_l, IH].
      assert (length (concat rs) = sum_list ((fun v => length (row rs v)) <$> seq 0 n)) as ->.
      { rewrite (rows_seq rs) at 1. rewrite Hl, length_concat_sum, <- list_fmap_compose. done. }
      rewrite <- sum_list_fmap_add. apply sum_list_fmap_le. intros v _. csimpl. by rewrite app_length.
Qed.

(** The part shared by union and adjacency product: greedy allocation, exact
    allocation if that fails, writing, shrinking. *)
Lemma Msat_build B n f greedy rb (mk0 : markers) w w1
    (count : R (markers * nat))
    (write : markers -> option (arr nat) -> option (arr nat) -> R (nat * option (arr nat) * option (arr nat))) :
  let rows := f <$> seq 0 n in
  wle w w1 -> own w1 [rb] w -> w_err w1 = w_err w -> w_tick w1 = w_tick w ->
  length mk0 = n -> length (concat rows) <= greedy ->
  (forall v, v < n -> Forall (fun x => x < n) (f v)) ->
  Rsat B count (fun '(mk, c) => length mk = n /\ c = length (concat rows)) ->
  (forall mk tb hb cap oh t0,
     length mk = n -> out_rep hb cap oh [] -> too_many_arcs cfg cap = false ->
     length (concat rows) <= cap ->
     Rsat B (write mk (Some (Arr tb (replicate (n + 1) t0))) oh)
       (fun '(c, ot, oh') => c = length (concat rows) /\
          tail_upto tb n f n ot /\ out_rep hb cap oh' (concat rows))) ->
  Msat B (
      let* r := init_digraph cfg n greedy in
      let* r :=
        (if decide (r.1 <> ER_OK) then
           let* _ := reset_error in
           let* c := lift count in
           let* r := init_digraph cfg n c.2 in
           Mret (r, c.1)
         else Mret (r, mk0)) in
      let '(ec, out_dg, mk) := r in
      if decide (ec <> ER_OK) then
        let* _ := free_arr (Some (Arr rb (fresh (option nat) n))) in
        Mret (ec, out_dg)
      else
        let* w := lift (write mk (dg_tail out_dg) (dg_head out_dg)) in
        let '(counter, ot, oh) := w in
        let* _ := free_arr (Some (Arr rb (fresh (option nat) n))) in
        let* r := change_arc_storage cfg (DG (dg_n out_dg) (dg_max out_dg) oh ot) counter in
        let '(ec, out_dg) := r in
        if decide (ec <> ER_OK) then
          let* dg := free_digraph out_dg in
          Mret (ec, dg)
        else Mret (ER_OK, out_dg)) w1 (new_post rows greedy w).
Proof.
  intros rows L1 O1 E1 T1 Hmk0 Hgr Hflt Hcount Hwrite.
  apply Msat_bind. eapply Msat_mono; [apply Msat_init_digraph|].
  intros r1 w2 Hi1. apply Msat_bind.
  assert (forall r w3 (mk : markers) m,
    length mk = n -> length (concat rows) <= m ->
    wle w1 w3 -> w_tick w3 = w_tick w1 ->
    (r.1 = ER_OK -> exists w2', init_post cfg None n m w2' r w3 /\ own w2' [] w1 /\
        (w_err w3 = w_err w1 \/ w_err w3 = no_errst) /\
        (no_fail w -> too_many_arcs cfg greedy = false -> w_err w3 = w_err w1)) ->
    (r.1 <> ER_OK -> own w3 [] w1 /\ e_code (w_err w3) = r.1 /\
       ((r.1 = ER_NO_MEMORY /\ ~ no_fail w1) \/
        (r.1 = ER_TOO_LARGE_PROBLEM /\ too_many_arcs cfg (length (concat rows)) = true))) ->
    Msat B (let '(ec, out_dg, mk) := (r, mk) in
        if decide (ec <> ER_OK) then
          let* _ := free_arr (Some (Arr rb (fresh (option nat) n))) in
          Mret (ec, out_dg)
        else
          let* w := lift (write mk (dg_tail out_dg) (dg_head out_dg)) in
          let '(counter, ot, oh) := w in
          let* _ := free_arr (Some (Arr rb (fresh (option nat) n))) in
          let* r := change_arc_storage cfg (DG (dg_n out_dg) (dg_max out_dg) oh ot) counter in
          let '(ec, out_dg) := r in
          if decide (ec <> ER_OK) then
            let* dg := free_digraph out_dg in
            Mret (ec, dg)
          else Mret (ER_OK, out_dg)) w3 (new_post rows greedy w)) as Hcont.
  { intros [ec out] w3 mk m Hmk Hm L3 T3 Hok Hbad. simpl in *.
    destruct (decide (ec <> ER_OK)) as [Hec|Hec].
    - destruct (Hbad Hec) as (Ho & Hcode & Hwhy). apply Msat_bind. apply Msat_free_arr.
      { intros x. simpl. specialize (O1 x). specialize (Ho x). simpl in *. lia. }
      intros w4 L4 C4 E4 T4. apply Msat_ret. split; [eauto|]. split; [congruence|]. simpl.
      split; [congruence|]. intros _. split; [own_solve|]. split; [congruence|].
      destruct Hwhy as [[-> Hf]|[-> Hf]]; [left|right]; split; auto.
      intros Hnf. apply Hf. eapply no_fail_wle; eauto.
    - assert (ec = ER_OK) as -> by (destruct (decide (ec = ER_OK)); tauto).
      destruct (Hok eq_refl) as (w2' & Hi & Ho2 & Herr & Herr2).
      destruct (init_post_out _ _ _ _ _ _ Hi eq_refl) as (tb & hb & Et & Hout & Hbl & Hn & Hmx & Hai & Hz & Hown).
      simpl in *. rewrite Et.
      apply Msat_bind, Msat_lift.
      eapply Rsat_mono; [eapply (Hwrite mk tb hb m); eauto|].
      intros [[c ot] oh] (Hc & Htl & Hoh).
      apply Msat_bind. apply Msat_free_arr.
      { intros x. simpl. specialize (O1 x). specialize (Ho2 x). specialize (Hown x). rewrite cnt_app in Hown. simpl in *. lia. }
      intros w4 L4 C4 E4 T4. rewrite Hn, Hmx.
      destruct (dg_rep_assemble n f tb hb m oh ot Htl Hoh) as [Hrep Hblk]; auto.
      { destruct Hoh as [Hb1 Hoh]. destruct Hout as [Hb2 _]. destruct oh, (dg_head out); simpl in *; try congruence.
        all: split; intros; try congruence; try tauto. apply Hz in H; congruence. }
      fold rows in Hrep.
      apply Msat_bind. rewrite Hc. eapply Msat_mono.
      { apply Msat_change_arc_storage; [exact Hrep|]. rewrite Hblk. intros x. specialize (C4 x). specialize (Hown x).
        specialize (Ho2 x). specialize (O1 x). rewrite cnt_app in *. simpl in *. lia. }
      intros [ec' dg'] w5 (L5 & T5 & C5 & Hok5 & Hbad5). rewrite Hblk in C5. simpl in *.
      destruct (decide (ec' <> ER_OK)) as [Hec'|Hec'].
      + destruct (Hbad5 Hec') as (-> & Hf5 & Hcode5). apply Msat_bind. apply Msat_free_digraph.
        { intros x. specialize (C5 x). specialize (C4 x). specialize (Hown x). specialize (Ho2 x). specialize (O1 x).
          rewrite cnt_app in *. simpl in *. lia. }
        intros w6 L6 C6 E6 T6. apply Msat_ret. split; [eauto 6|]. split; [congruence|]. simpl. split; [discriminate|].
        intros _. split.
        { intros x. specialize (C6 x). specialize (C5 x). specialize (C4 x). specialize (Hown x). specialize (Ho2 x). specialize (O1 x).
          rewrite cnt_app in *. simpl in *. lia. }
        split; [congruence|]. left. split; auto. intros Hnf. apply Hf5. eapply no_fail_wle; [exact Hnf|]. eauto.
      + assert (ec' = ER_OK) as -> by (destruct (decide (ec' = ER_OK)); tauto).
        destruct (Hok5 eq_refl) as (Hrep5 & Hmax5 & Herr5). apply Msat_ret.
        split; [eauto 6|]. split; [congruence|]. simpl. split; [|congruence]. intros _.
        split.
        { intros x. specialize (C5 x). specialize (C4 x). specialize (Hown x). specialize (Ho2 x). specialize (O1 x).
          rewrite cnt_app in *. simpl in *. lia. }
        split; auto. split; auto. split; [destruct Herr; [left|right]; congruence|].
        intros Hnf Htm. specialize (Herr2 Hnf Htm). congruence. }
  pose proof Hi1 as (L2 & T2 & Hok1 & Hbad1).
  destruct (decide (r1.1 <> ER_OK)) as [Hr1|Hr1].
  - destruct (Hbad1 Hr1) as (Ho2 & Hwhy2 & Hcode2).
    apply Msat_bind. unfold reset_error. apply Msat_set_err. intros w3 L3 O3 E3 T3.
    apply Msat_bind, Msat_lift.
    eapply Rsat_mono; [exact Hcount|].
    intros [mk c] [Hmk ->]. simpl.
    apply Msat_bind. eapply Msat_mono; [apply Msat_init_digraph|].
    intros r4 w4 Hi4. apply Msat_ret.
    pose proof Hi4 as (L4 & T4 & Hok4 & Hbad4).
    apply (Hcont r4 w4 mk (length (concat rows))); auto.
    + eauto.
    + congruence.
    + intros E. destruct (Hok4 E) as (_ & Herr4 & _). exists w3. split; [exact Hi4|].
      split; [own_solve|]. split; [right; congruence|].
      intros Hnf Htm. exfalso. destruct Hwhy2 as [[? _]|[Hf _]]; [congruence|].
      apply Hf. eapply no_fail_wle; eauto.
    + intros E. destruct (Hbad4 E) as (Ho4 & Hwhy4 & Hc4). split; [own_solve|]. split; auto.
      destruct Hwhy4 as [[Htm ->]|[Hf ->]]; auto. left. split; auto. intros Hnf. apply Hf.
      eapply no_fail_wle; [exact Hnf|]. eauto.
  - apply Msat_ret. assert (r1.1 = ER_OK) as E by (destruct (decide (r1.1 = ER_OK)); tauto).
    destruct (Hok1 E) as (_ & Herr1 & _).
    apply (Hcont r1 w2 mk0 greedy); auto.
    + intros _. exists w1. split; [auto|]. split; [apply own_refl|]. auto.
    + congruence.
Qed.

Lemma Msat_union B dgs rss n keep tails w :
  dgs_rep dgs rss n -> dgs <> [] -> tails_ok n tails ->
  Msat B (digraph_union_and_delete cfg dgs tails keep) w
    (new_post (union_rows keep tails rss n) (sum_list (length <$> (@concat nat <$> rss))) w).
Proof.
  intros Hd Hne Hts. unfold digraph_union_and_delete. destruct dgs as [|dg0 dgs]; [congruence|].
  pose proof Hd as Hd0. apply Forall2_cons_inv_l in Hd0 as (rs0 & rss' & [Hr0 Hl0] & Hd' & Erss).
  rewrite (rep_n cfg _ _ Hr0), Hl0.
  apply Msat_bind, Msat_lift. eapply Rsat_mono; [by apply greedy_union_sat|]. intros g ->.
  pose proof (union_rows_greedy _ _ _ keep tails Hd) as Hgr.
  apply Msat_bind. apply Msat_malloc_arr.
  { intros w1 L1 O1 E1 T1 F1. apply Msat_bind, Msat_make_error__. intros w2 L2 O2 E2 T2.
    apply Msat_ret. split; [eauto|]. split; [congruence|]. simpl. split; [discriminate|]. intros _.
    split; [own_solve|]. rewrite E2. auto. }
  intros w1 rb L1 O1 E1 T1.
  apply (Msat_build B n (union_rowk keep tails rss) _ rb _ w w1
    (do_union_count (dg0 :: dgs) (fresh (option nat) n) tails keep)
    (fun mk => do_union_write cfg (dg0 :: dgs) mk tails keep)); auto.
  - unfold fresh. apply replicate_length.
  - intros v Hv. eapply union_row_lt; eauto.
  - eapply do_union_count_sat; eauto. unfold fresh. apply replicate_length.
  - intros mk tb hb cap oh t0 Hmk Hoh Hai Hcap. eapply do_union_write_sat; eauto.
Qed.

(** ** Adjacency product *)

(** Row of the product: heads reachable by an arc of [a] followed by an arc of
    [b] (and, with forced loops, by an arc of [b]), without self-loops. *)
Definition product_arcs (force : bool) (ra rb : list (list nat)) (v : nat) : list nat :=
  (if force then row rb v else []) ++ concat (row rb <$> row ra v).
Definition product_row (force : bool) (ra rb : list (list nat)) (v : nat) : list nat :=
  dd [v] (product_arcs force ra rb v).
Definition product_rows (force : bool) (ra rb : list (list nat)) : list (list nat) :=
  product_row force ra rb <$> seq 0 (length ra).

Lemma product_fold {S} dga dgb ra rb v (force : bool) (s : S) f :
  dg_rep dga ra -> dg_rep dgb rb -> length ra = length rb -> v < length ra ->
  (let! s := (if force then for_arcs dgb v s f else Ok s) in
   for_arcs dga v s (fun u s => for_arcs dgb u s f)) = foldR f s (product_arcs force ra rb v).
Proof.
  intros Ha Hb Hl Hv. unfold product_arcs. rewrite foldR_app.
  assert (forall s : S, for_arcs dga v s (fun u s => for_arcs dgb u s f) = foldR f s (concat (row rb <$> row ra v))) as E.
  { intros s'. rewrite (for_arcs_fold cfg dga ra v (row ra v)) by (auto; apply row_lookup; lia).
    rewrite <- foldR_concat, foldR_fmap. apply foldR_ext_in. intros u s1 Hu.
    apply (for_arcs_fold cfg dgb rb); auto. apply row_lookup. rewrite <- Hl.
    eapply (rep_lookup_lt cfg _ _ v); eauto. by apply row_lookup. }
  destruct force.
  - rewrite (for_arcs_fold cfg dgb rb v (row rb v)) by (auto; apply row_lookup; lia).
    destruct (foldR f s (row rb v)); simpl; auto.
  - simpl. auto.
Qed.

Lemma product_arcs_lt dga dgb ra rb v force :
  dg_rep dga ra -> dg_rep dgb rb -> length ra = length rb -> v < length ra ->
  Forall (fun x => x < length ra) (product_arcs force ra rb v).
Proof.
  intros Ha Hb Hl Hv.
  assert (forall u, u < length rb -> Forall (fun x => x < length ra) (row rb u)) as Hrow.
  { intros u Hu. apply Forall_forall. intros x Hx. rewrite Hl.
    eapply (rep_lookup_lt cfg _ _ u); eauto. by apply row_lookup. }
  unfold product_arcs. apply Forall_app. split.
  - destruct force; [apply Hrow; lia|constructor].
  - apply Forall_concat. apply Forall_fmap. apply Forall_forall. intros u Hu. simpl. apply Hrow.
    rewrite <- Hl. eapply (rep_lookup_lt cfg _ _ v); eauto. by apply row_lookup.
Qed.

Lemma do_product_count_sat B dga dgb ra rb force mk :
  dg_rep dga ra -> dg_rep dgb rb -> length ra = length rb -> length mk = length ra ->
  Rsat B (do_product_count dga dgb mk force) (fun '(mk', c) =>
    length mk' = length ra /\ c = length (concat (product_rows force ra rb))).
Proof.
  intros Ha Hb Hl Hmk. unfold do_product_count. rewrite (rep_n cfg _ _ Ha).
  apply Rsat_bind. eapply Rsat_mono; [by apply reset_markers_sat|]. simpl. intros mk1 Hmk1.
  eapply (forR_sat0 B (fun v (s : markers * nat) => let '(mk, c) := s in
      mk_in (length ra) mk (fun u => u < v) /\ c = length (outf (product_row force ra rb) v))).
  - split; [|auto]. eapply mk_in_mono; [exact Hmk1|]. simpl. tauto.
  - intros v [mk2 c2] Hv [Hm2 ->]. pose proof Hm2 as [Hl2 _].
    apply Rsat_bind. apply Rsat_cset; [lia|].
    rewrite (product_fold dga dgb ra rb v force _ _ Ha Hb Hl Hv).
    eapply Rsat_mono.
    { apply (mark_count_fold B (length ra) v (fun u => u < S v) _ _ [v]).
      - apply mk_ok_set; [|lia]. eapply mk_in_ok; [exact Hm2|simpl; lia].
      - apply mk_in_set; [|lia]. eapply mk_in_mono; [exact Hm2|simpl; lia].
      - lia.
      - eapply product_arcs_lt; eauto. }
    intros [mk3 c3] (_ & H2 & ->). split; auto. rewrite outf_S, app_length. reflexivity.
  - intros [mk2 c2] [[Hl2 _] ->]. auto.
Qed.

Lemma do_product_write_sat B dga dgb ra rb force mk tb hb cap oh t0 :
  dg_rep dga ra -> dg_rep dgb rb -> length ra = length rb -> length mk = length ra ->
  out_rep hb cap oh [] -> too_many_arcs cfg cap = false ->
  length (concat (product_rows force ra rb)) <= cap ->
  Rsat B (do_product_write cfg dga dgb mk force (Some (Arr tb (replicate (length ra + 1) t0))) oh)
    (fun '(c, ot, oh') =>
      c = length (concat (product_rows force ra rb)) /\
      tail_upto tb (length ra) (product_row force ra rb) (length ra) ot /\
      out_rep hb cap oh' (concat (product_rows force ra rb))).
Proof.
  intros Ha Hb Hl Hmk Ho Hai Hcap. unfold do_product_write. rewrite (rep_n cfg _ _ Ha).
  set (f := product_row force ra rb). set (n := length ra) in *.
  assert (length (outf f n) <= cap) as Hcapf by exact Hcap.
  apply Rsat_bind. eapply Rsat_mono; [by apply reset_markers_sat|]. simpl. intros mk1 Hmk1.
  apply Rsat_bind, Rsat_bind. apply Rsat_cset; [rewrite replicate_length; lia|]. simpl.
  eapply Rsat_bind_mono.
  { eapply (forR_sat0 B (fun v s => let '(mk, c, oh, ot) := s in
        mk_in n mk (fun u => u < v) /\ out_rep hb cap oh (outf f v) /\ c = length (outf f v) /\
        tail_upto tb n f v ot)
        _ _ _ (fun s => let '(mk, c, oh, ot) := s in
        mk_in n mk (fun u => u < n) /\ out_rep hb cap oh (outf f n) /\ c = length (outf f n) /\
        tail_upto tb n f n ot)).
    - splits; auto. { eapply mk_in_mono; [exact Hmk1|]. simpl. tauto. }
      eexists. split; [reflexivity|]. rewrite insert_length, replicate_length. split; [lia|].
      intros k Hk. replace k with 0 by lia. rewrite list_lookup_insert; [reflexivity|].
      rewrite replicate_length. lia.
    - intros v [[[mk2 c2] oh2] ot2] Hv (Hm2 & Ho2 & Hc2 & Ht2). pose proof Hm2 as [Hl2 _].
      apply Rsat_bind. apply Rsat_cset; [lia|].
      match goal with |- Rsat _ (Rbind ?a (fun s => Rbind (@?b s) ?c)) ?P =>
        assert (Rbind a (fun s => Rbind (b s) c) = Rbind (Rbind a b) c) as -> by (destruct a; reflexivity) end.
      rewrite (product_fold dga dgb ra rb v force _ _ Ha Hb Hl Hv).
      pose proof (outf_mono f (S v) n ltac:(lia)) as Hmono.
      eapply Rsat_bind_mono.
      { apply (mark_write_fold B hb cap n v (fun u => u < S v) _ _ [v] _ _ (outf f v)); auto.
        - apply mk_ok_set; [|lia]. eapply mk_in_ok; [exact Hm2|simpl; lia].
        - apply mk_in_set; [|lia]. eapply mk_in_mono; [exact Hm2|simpl; lia].
        - eapply product_arcs_lt; eauto.
        - rewrite outf_S in Hmono. change (dd [v] (product_arcs force ra rb v)) with (f v). lia. }
      change (dd [v] (product_arcs force ra rb v)) with (f v). rewrite <- outf_S.
      intros [[mk3 c3] oh3] (_ & Hm3 & Ho3 & Hc3). subst c3.
      rewrite too_many_arcs_wrap by (eapply too_many_arcs_mono; [|exact Hai]; lia).
      apply Rsat_bind. eapply tail_upto_push; eauto. intros ot' Hot'. simpl. splits; auto.
    - auto. }
  intros [[[mk2 c2] oh2] ot2] (Hm2 & Ho2 & Hc2 & Ht2). simpl. splits; auto.
Qed.

(** Size of the first storage request of the product. *)
Definition product_greedy (force : bool) (ra rb : list (list nat)) : nat :=
  sum_list ((fun x => length (row rb x)) <$> concat ra) + (if force then length (concat rb) else 0).

Lemma sum_list_app l1 l2 : sum_list (l1 ++ l2) = sum_list l1 + sum_list l2.
Proof. induction l1; simpl; lia. Qed.

Lemma sum_concat (g : nat -> nat) (ls : list (list nat)) :
  sum_list (g <$> concat ls) = sum_list ((fun l => sum_list (g <$> l)) <$> ls).
Proof. induction ls as [|l ls IH]; csimpl; auto. rewrite fmap_app, sum_list_app. lia. Qed.

Lemma product_rows_greedy force ra rb : length ra = length rb ->
  length (concat (product_rows force ra rb)) <= product_greedy force ra rb.
Proof.
  intros Hl. unfold product_rows, product_greedy. rewrite length_concat_sum, <- list_fmap_compose.
  transitivity (sum_list ((fun v => sum_list ((fun x => length (row rb x)) <$> row ra v) +
      (if force then length (row rb v) else 0)) <$> seq 0 (length ra))).
  - apply sum_list_fmap_le. intros v _. simpl. unfold product_row, product_arcs.
    etransitivity; [apply dd_length|]. rewrite app_length, length_concat_sum, <- list_fmap_compose.
    unfold compose. destruct force; simpl; lia.
  - rewrite sum_list_fmap_add. rewrite sum_concat. rewrite (rows_seq ra) at 3.
    rewrite <- list_fmap_compose. unfold compose. apply Nat.add_le_mono_l.
    destruct force.
    + assert (length (concat rb) = sum_list ((fun v => length (row rb v)) <$> seq 0 (length ra))) as ->; [|auto].
      rewrite (rows_seq rb) at 1. rewrite length_concat_sum, <- list_fmap_compose, <- Hl. reflexivity.
    + rewrite sum_list_fmap_zero; auto.
Qed.

Lemma Msat_product B dga dgb ra rb force w :
  dg_rep dga ra -> dg_rep dgb rb -> length ra = length rb ->
  Msat B (adjacency_product cfg dga dgb force) w
    (new_post (product_rows force ra rb) (product_greedy force ra rb) w).
Proof.
  intros Ha Hb Hl. unfold adjacency_product. rewrite (rep_n cfg _ _ Ha).
  apply Msat_bind. apply Msat_malloc_arr.
  { intros w1 L1 O1 E1 T1 F1. apply Msat_bind, Msat_make_error__. intros w2 L2 O2 E2 T2.
    apply Msat_ret. split; [eauto|]. split; [congruence|]. simpl. split; [discriminate|]. intros _.
    split; [own_solve|]. rewrite E2. auto. }
  intros w1 r L1 O1 E1 T1.
  apply Msat_bind, Msat_lift. rewrite (rep_tail_get cfg dga ra _ Ha) by lia. simpl.
  rewrite offs_all by lia.
  rewrite (for_all_arcs_fold cfg dga ra 0 (fun x acc =>
     let! hi := aget (dg_tail dgb) (x + 1) in let! lo := aget (dg_tail dgb) x in Ok (acc + (hi - lo))) Ha).
  apply Rsat_bind. eapply Rsat_mono.
  { apply (foldR_sat B (fun pre acc => acc = sum_list ((fun x => length (row rb x)) <$> pre))).
    - reflexivity.
    - intros pre x post s Eq ->.
      assert (x < length rb) as Hx.
      { rewrite <- Hl. pose proof (rep_lt _ _ _ Ha) as Hlt. apply Forall_concat in Hlt. rewrite Eq in Hlt.
        apply Forall_app in Hlt as [_ Hlt]. by apply Forall_cons in Hlt as [? _]. }
      rewrite !(rep_tail_get cfg dgb rb _ Hb) by lia. simpl.
      rewrite Nat.add_1_r, (offs_S _ _ (row rb x)) by (by apply row_lookup).
      rewrite fmap_app, sum_list_app. simpl. lia. }
  intros g ->.
  assert (forall m, m = product_greedy force ra rb -> Msat B (
      let* r0 := init_digraph cfg (length ra) m in
      let* r1 := (if decide (r0.1 <> ER_OK) then
           let* _ := reset_error in
           let* c := lift (do_product_count dga dgb (fresh (option nat) (length ra)) force) in
           let* r := init_digraph cfg (length ra) c.2 in Mret (r, c.1)
         else Mret (r0, fresh (option nat) (length ra))) in
      let '(ec, out_dg, mk) := r1 in
      if decide (ec <> ER_OK) then
        let* _ := free_arr (Some (Arr r (fresh (option nat) (length ra)))) in Mret (ec, out_dg)
      else
        let* w := lift (do_product_write cfg dga dgb mk force (dg_tail out_dg) (dg_head out_dg)) in
        let '(counter, ot, oh) := w in
        let* _ := free_arr (Some (Arr r (fresh (option nat) (length ra)))) in
        let* r := change_arc_storage cfg (DG (dg_n out_dg) (dg_max out_dg) oh ot) counter in
        let '(ec, out_dg) := r in
        if decide (ec <> ER_OK) then
          let* dg := free_digraph out_dg in Mret (ec, dg)
        else Mret (ER_OK, out_dg)) w1 (new_post (product_rows force ra rb) (product_greedy force ra rb) w)) as H.
  { intros m ->. apply (Msat_build B (length ra) (product_row force ra rb) _ r _ w w1
      (do_product_count dga dgb (fresh (option nat) (length ra)) force)
      (fun mk => do_product_write cfg dga dgb mk force)); auto.
    - unfold fresh. apply replicate_length.
    - by apply product_rows_greedy.
    - intros v Hv. pose proof (product_arcs_lt dga dgb ra rb v force Ha Hb Hl Hv) as Hlt.
      apply Forall_forall. intros x Hx. apply elem_of_dd in Hx as [Hx _]. eapply Forall_forall in Hlt; eauto.
    - apply do_product_count_sat; auto. unfold fresh. apply replicate_length.
    - intros mk tb hb cap oh t0 Hmk Hoh Hai Hcap. apply do_product_write_sat; auto. }
  destruct force.
  - rewrite (rep_tail_get cfg dgb rb _ Hb) by lia. simpl. apply H. unfold product_greedy.
    rewrite offs_all by lia. reflexivity.
  - simpl. apply H. unfold product_greedy. lia.
Qed.

End Union.
