(** The functions of src/digraph_debug.c: what they compute. *)

From Coq Require Import Strings.Ascii.
From stdpp Require Import prelude list.
From Coq Require Import NArith ZArith.
From Verif Require Import Base World Mem Digraph DigraphRep DigraphOps Arrays DigraphUnion GraphSpec DigraphDebug.

(** ** Specification *)

(** A square matrix of truth values; [has m v u]: entry in row [v], column [u]. *)
Definition square (m : list (list bool)) : Prop := m <> [] /\ Forall (fun r => length r = length m) m.
Definition has (m : list (list bool)) (v u : nat) : Prop := (m !! v) ≫= (.!! u) = Some true.
Global Instance has_dec m v u : Decision (has m v u).
Proof. unfold has. solve_decision. Defined.

(** The arcs it describes. *)
Definition matrix_arcs (m : list (list bool)) (v : nat) : list nat :=
  filter (fun u => has m v u) (seq 0 (length m)).

(** The text for it: one character for each entry, an end mark after each row. *)
Definition cell_char (b : bool) : ascii := if b then c_hash else c_dot.
Definition text (stop : ascii) (m : list (list bool)) : list ascii :=
  concat ((fun r => (cell_char <$> r) ++ [stop]) <$> m).

(** [cs] without the characters that mean nothing. *)
Definition relevant (cs : list ascii) : list ascii := filter (fun c => c = c_hash \/ c = c_dot \/ c = c_slash) cs.

(** [cs] describes [m]. The last end mark may be missing if there is another. *)
Definition describes (cs : list ascii) (m : list (list bool)) : Prop :=
  relevant cs = text c_slash m \/ (1 < length m /\ relevant cs ++ [c_slash] = text c_slash m).

(** The matrix of a graph. *)
Definition matrix_of (g : list (list nat)) : list (list bool) :=
  (fun r => (fun u => bool_decide (u ∈ r)) <$> seq 0 (length g)) <$> g.

(** ** Tables *)

Definition tab {A} (n : nat) (f : nat -> A) : list A := f <$> seq 0 n.

Lemma tab_length {A} n (f : nat -> A) : length (tab n f) = n.
Proof. unfold tab. by rewrite fmap_length, seq_length. Qed.

Lemma tab_lookup {A} n (f : nat -> A) i : i < n -> tab n f !! i = Some (f i).
Proof. intros H. unfold tab. by rewrite list_lookup_fmap, lookup_seq_lt. Qed.

Lemma tab_ext {A} n (f g : nat -> A) : (forall i, i < n -> f i = g i) -> tab n f = tab n g.
Proof. intros H. unfold tab. apply list_fmap_ext. intros i x [-> Hi]%lookup_seq. auto. Qed.

Lemma tab_insert {A} n (f : nat -> A) x a : x < n -> <[x := a]> (tab n f) = tab n (fun i => if decide (i = x) then a else f i).
Proof.
  intros Hx. apply list_eq. intros i. destruct (decide (i < n)) as [Hi|Hi].
  - rewrite tab_lookup by done. destruct (decide (i = x)) as [-> |Hne].
    + by rewrite list_lookup_insert by (by rewrite tab_length).
    + by rewrite list_lookup_insert_ne, tab_lookup by done.
  - rewrite !lookup_ge_None_2; [done| |]; rewrite ?insert_length, tab_length; lia.
Qed.

Lemma tab_replicate {A} n (a : A) : replicate n a = tab n (fun _ => a).
Proof.
  apply list_eq. intros i. destruct (decide (i < n)) as [Hi|Hi].
  - by rewrite tab_lookup, lookup_replicate_2.
  - rewrite !lookup_ge_None_2; [done| |]; rewrite ?replicate_length, ?tab_length; lia.
Qed.

Lemma mark_arcs {A} b n (f : nat -> A) a l : Forall (fun x => x < n) l ->
  foldR (fun x row => aset row x a) (farr b (tab n f)) l = Ok (farr b (tab n (fun i => if decide (i ∈ l) then a else f i))).
Proof.
  revert f. induction l as [|x l IH]; intros f Hl; simpl.
  - reflexivity.
  - apply Forall_cons in Hl as [Hx Hl]. rewrite aset_farr by (by rewrite tab_length). simpl. rewrite tab_insert by done. rewrite IH by done.
    do 4 f_equal. apply tab_ext. intros i _. destruct (decide (i ∈ l)) as [H1|H1]; [rewrite decide_True by (by right); done|].
    destruct (decide (i = x)) as [-> |H2]; [rewrite decide_True by left; done|]. rewrite decide_False; [done|]. rewrite elem_of_cons. tauto.
Qed.

Section Debug.
Context (cfg : config).

(** ** iscc_is_balanced_digraph *)

Lemma offs_const rows k i : (forall v r, rows !! v = Some r -> length r = k) -> i <= length rows -> offs rows i = i * k.
Proof.
  intros H. induction i as [|i IH]; intros Hi; [done|]. destruct (lookup_lt_is_Some_2 rows i) as [r Hr]; [lia|].
  rewrite (offs_S _ _ _ Hr), IH, (H _ _ Hr) by lia. lia.
Qed.

Lemma is_balanced_sat dg g k : dg_rep cfg dg g -> (N.of_nat (length g) <= pi_max cfg)%N -> (N.of_nat k <= ai_max cfg)%N -> (ai_max cfg <= u64max)%N ->
  is_balanced_digraph cfg dg k = Ok (bool_decide (Forall (fun r => length r = k) g)).
Proof.
  intros H Hpi Hk Hu. unfold is_balanced_digraph. rewrite (rep_valid cfg dg g H) by (by rewrite (rep_n _ _ _ H)). cbn [negb Rbind].
  assert (forall i, offs g i <= N.to_nat u64max) as Hmax.
  { intros i. pose proof (offs_le_all g i). pose proof (rep_max _ _ _ H). pose proof (rep_ai _ _ _ H) as Ha. unfold too_many_arcs in Ha.
    apply orb_false_iff in Ha as [_ Ha%N.ltb_ge]. lia. }
  rewrite (rep_n _ _ _ H).
  pose proof (loopR_sat none (fun i _ => forall j, j < i -> offs g j = j * k) (fun _ : unit => ~ Forall (fun r => length r = k) g) (S (length g)) 0 tt
    (fun i _ => let! t := aget (dg_tail dg) i in if decide (t <> wrapN u64max (i * k)) then Ok (inr tt) else Ok (inl tt))) as L.
  feed specialize L; [intros; lia| |].
  { intros i [] Hi Hpre. rewrite (rep_tail_get _ _ _ _ H) by lia. simpl.
    destruct (decide (offs g i <> wrapN u64max (i * k))) as [Hne|He]; simpl.
    - intros Hall. apply Hne. assert (offs g i = i * k) as E by (apply offs_const; [intros v r Hr; exact (Forall_lookup_1 _ _ _ _ Hall Hr)|lia]).
      rewrite E. symmetry. apply wrapN_small. specialize (Hmax i). lia.
    - intros j Hj. destruct (decide (j < i)) as [|Hji]; [by apply Hpre|]. assert (j = i) as -> by lia.
      assert (offs g i = wrapN u64max (i * k)) as E by (destruct (decide (offs g i = wrapN u64max (i * k))); tauto).
      destruct (decide (N.of_nat (i * k) <= u64max)%N) as [Hs|Hs]; [by rewrite wrapN_small in E|]. exfalso.
      destruct i as [|i]; [simpl in Hs; lia|]. specialize (Hpre i ltac:(lia)). pose proof (offs_mono g i (S i) ltac:(lia)) as Hm. rewrite Hpre, E in Hm.
      pose proof (Hmax i) as Hi'. rewrite Hpre in Hi'.
      assert (N.of_nat (S i * k) < 2 * (u64max + 1))%N as H2.
      { replace (S i * k) with (k + i * k) by lia. rewrite Nat2N.inj_add. assert (N.of_nat k <= u64max)%N by lia. lia. }
      unfold wrapN in Hm. assert (N.of_nat (S i * k) mod (u64max + 1) = N.of_nat (S i * k) - (u64max + 1))%N as Em.
      { symmetry. apply (N.mod_unique _ _ 1); lia. }
      rewrite Em in Hm. assert (N.of_nat (i * k) <= N.of_nat (S i * k) - (u64max + 1))%N as Hm' by lia.
      assert (N.of_nat k <= u64max)%N by lia. replace (S i * k) with (k + i * k) in * by lia. lia. }
  destruct (loopR (S (length g)) _ _ _) as [[[]|[]]|]; cbn [Rsat Rbind] in *; [| |done]; f_equal; symmetry.
  - apply bool_decide_eq_true_2. apply Forall_lookup_2. intros v r Hr. pose proof (lookup_lt_Some _ _ _ Hr).
    pose proof (offs_S _ _ _ Hr) as E. rewrite (L v), (L (S v)) in E by lia. lia.
  - by apply bool_decide_eq_false_2.
Qed.

(** ** iscc_digraphs_equal *)

Lemma equal_row b n ra rb : Forall (fun x => x < n) ra -> Forall (fun x => x < n) rb ->
  Rsat none (
    let! row := foldR (fun x row => aset row x 1) (farr b (tab n (fun _ => 0))) ra in
    let! r := foldXR (T := unit) (fun x row =>
      let! m := aget row x in
      if decide (m = 0) then Ok (inr tt) else
      let! row := aset row x 2 in Ok (inl row)) row rb in
    match r with
    | inr _ => Ok (inr tt)
    | inl row =>
        loopR (T := unit) n 0 row (fun i row =>
          let! m := aget row i in
          if decide (m = 1) then Ok (inr tt) else
          let! row := aset row i 0 in Ok (inl row))
    end) (fun r => match r with
      | inl row => row = farr b (tab n (fun _ => 0)) /\ forall x, x ∈ ra <-> x ∈ rb
      | inr _ => ~ forall x, x ∈ ra <-> x ∈ rb
      end).
Proof.
  intros Ha Hb. rewrite mark_arcs by done. simpl Rbind. apply Rsat_bind.
  eapply Rsat_mono.
  { apply (foldXR_sat none (fun pre row => row = farr b (tab n (fun i => if decide (i ∈ pre) then 2 else if decide (i ∈ ra) then 1 else 0)) /\ forall x, x ∈ pre -> x ∈ ra)
      (fun _ : unit => exists x, x ∈ rb /\ x ∉ ra)).
    - split; [reflexivity|intros x Hx%elem_of_nil; done].
    - intros pre x post row E [-> Hpre]. assert (x < n) as Hx. { eapply Forall_forall in Hb; [exact Hb|]. rewrite E. apply elem_of_app. right. left. }
      rewrite (aget_farr b _ x (if decide (x ∈ pre) then 2 else if decide (x ∈ ra) then 1 else 0)) by (by rewrite tab_lookup). simpl Rbind.
      assert (x ∈ rb) as Hxb by (rewrite E; apply elem_of_app; right; left).
      destruct (decide (x ∈ pre)) as [H1|H1]; [|destruct (decide (x ∈ ra)) as [H2|H2]].
      all: try (rewrite decide_False by lia; rewrite aset_farr by (by rewrite tab_length); simpl Rbind; rewrite tab_insert by done;
        apply Rsat_Ok; split;
        [do 3 f_equal; apply tab_ext; intros i _; destruct (decide (i = x)) as [-> |Hi];
          [rewrite decide_True by (apply elem_of_app; right; left); done|];
          destruct (decide (i ∈ pre)) as [H3|H3];
          [rewrite decide_True by (apply elem_of_app; by left); done
          |rewrite (decide_False (P := i ∈ pre ++ [x])); [done|rewrite elem_of_app, elem_of_list_singleton; tauto]]
        |intros y [Hy| ->%elem_of_list_singleton]%elem_of_app; auto]).
      rewrite decide_True by done. apply Rsat_Ok. eauto. }
  intros [row|[]]; [intros [-> Hsub]|intros (x & H1 & H2); simpl; intros Hall; apply H2; by apply Hall].
  pose proof (loopR_sat none (fun j row => row = farr b (tab n (fun i => if decide (i < j) then 0 else if decide (i ∈ rb) then 2 else if decide (i ∈ ra) then 1 else 0)) /\
      forall x, x < j -> x ∈ ra -> x ∈ rb) (fun _ : unit => exists x, x ∈ ra /\ x ∉ rb) n 0) as L.
  eapply Rsat_mono; [apply L|]; clear L.
  - split; [reflexivity|intros; lia].
  - intros j row Hj [-> Hpre]. rewrite (aget_farr b _ j (if decide (j < j) then 0 else if decide (j ∈ rb) then 2 else if decide (j ∈ ra) then 1 else 0)) by (rewrite tab_lookup by lia; done).
    simpl Rbind. rewrite (decide_False (P := j < j)) by lia.
    destruct (decide (j ∈ rb)) as [H1|H1]; [|destruct (decide (j ∈ ra)) as [H2|H2]].
    2:{ rewrite decide_True by done. apply Rsat_Ok. eauto. }
    all: rewrite decide_False by lia; rewrite aset_farr by (rewrite tab_length; lia); simpl Rbind; rewrite tab_insert by lia; apply Rsat_Ok; split;
      [do 3 f_equal; apply tab_ext; intros i _; destruct (decide (i = j)) as [-> |Hi]; [by rewrite decide_True by lia|];
        destruct (decide (i < j)); [by rewrite decide_True by lia|by rewrite (decide_False (P := i < S j)) by lia]
      |intros x Hx; destruct (decide (x = j)) as [-> |]; [tauto|apply Hpre; lia]].
  - intros [row|[]]; [intros [-> Hsup]|intros (x & H1 & H2) Hall; apply H2; by apply Hall]. split.
    + do 3 f_equal. apply tab_ext. intros i Hi. rewrite decide_True by lia. done.
    + intros x. split; [|apply Hsub]. intros Hx. apply Hsup; [|done]. simpl. eapply Forall_forall in Ha; [|exact Hx]. done.
Qed.

Lemma Msat_digraphs_equal dga dgb ga gb w : dg_rep cfg dga ga -> dg_rep cfg dgb gb -> no_fail w ->
  Msat none (digraphs_equal dga dgb) w (fun r w' => w_live w' ≡ₚ w_live w /\ w_err w' = w_err w /\
    (r = true <-> length ga = length gb /\ forall v x, x ∈ adj ga v <-> x ∈ adj gb v)).
Proof.
  intros Ha Hb Hnf. unfold digraphs_equal. rewrite (rep_n _ _ _ Ha), (rep_n _ _ _ Hb).
  destruct (decide (length ga <> length gb)) as [Hn|Hn]; [apply Msat_ret; splits; [done|done|]; split; [done|tauto]|].
  assert (length ga = length gb) as Hl by lia. clear Hn.
  rewrite (rep_tail_get _ _ _ _ Ha), offs_all by lia. simpl Rbind. rewrite (rep_tail_get _ _ _ _ Hb), offs_all by lia. simpl Rbind.
  assert (forall v, v < length ga -> ga !! v = Some (adj ga v)) as La.
  { intros v Hv. unfold adj. destruct (lookup_lt_is_Some_2 ga v Hv) as [r ->]. done. }
  assert (forall v, v < length gb -> gb !! v = Some (adj gb v)) as Lb.
  { intros v Hv. unfold adj. destruct (lookup_lt_is_Some_2 gb v Hv) as [r ->]. done. }
  assert (forall g v x, concat g = [] -> x ∉ adj g v) as Hnil.
  { intros g v x E Hx. unfold adj in Hx. destruct (g !! v) as [r|] eqn:Er; [|by apply elem_of_nil in Hx].
    apply elem_of_list_lookup in Hx as [j Hj]. pose proof (concat_lookup _ _ _ _ _ Er Hj) as E2. rewrite E in E2. done. }
  apply Msat_bind, Msat_lift.
  assert (forall P : bool -> Prop, (length (concat ga) = 0 -> length (concat gb) = 0 -> P true) -> P false -> Rsat none (if decide (length (concat ga) = 0) then Ok (bool_decide (length (concat gb) = 0)) else Ok false) P) as Hd.
  { intros P H1 H2. destruct (decide (length (concat ga) = 0)) as [E1|E1]; simpl; [|done]. destruct (decide (length (concat gb) = 0)) as [E2|E2].
    - rewrite bool_decide_eq_true_2 by done. auto.
    - by rewrite bool_decide_eq_false_2. }
  apply Hd; clear Hd.
  { intros E1%nil_length_inv E2%nil_length_inv. apply Msat_ret. splits; [done|done|]. split; [|done]. intros _. split; [done|]. intros v x.
    split; intros Hx; exfalso; by eapply Hnil in Hx. }
  apply Msat_bind, Msat_calloc_arr; [done|]. intros w1 b L1 O1 E1 T1. rewrite replicate_farr, tab_replicate.
  apply Msat_bind, Msat_lift.
  pose proof (loopR_sat none (fun v row => row = farr b (tab (length ga) (fun _ => 0)) /\ forall u x, u < v -> x ∈ adj ga u <-> x ∈ adj gb u)
      (fun _ : unit => exists v, ~ forall x, x ∈ adj ga v <-> x ∈ adj gb v) (length ga) 0) as L.
  eapply Rsat_mono; [apply L|]; clear L.
  - split; [done|]. intros; lia.
  - intros v row Hv [-> Hpre]. assert (v < length ga) as Hva by lia. assert (v < length gb) as Hvb by lia. rewrite (for_arcs_fold cfg dga ga v _ _ _ Ha (La v Hva)).
    pose proof (equal_row b (length ga) (adj ga v) (adj gb v)) as Hrow. feed specialize Hrow.
    { apply Forall_forall. intros x Hx. eapply rep_lookup_lt; [exact Ha|exact (La v Hva)|exact Hx]. }
    { apply Forall_forall. intros x Hx. rewrite Hl. eapply rep_lookup_lt; [exact Hb|exact (Lb v Hvb)|exact Hx]. }
    assert (forall (m1 m2 : R (option (arr nat) + unit)) (Q : _ -> Prop), m1 = m2 -> Rsat none m2 Q -> Rsat none m1 Q) as Heq by (intros ? ? ? -> ?; done).
    eapply Rsat_mono; [eapply Heq; [|exact Hrow]|].
    + destruct (foldR _ _ _); simpl; [|done]. by rewrite (loop_arcs_fold cfg dgb gb v _ _ _ Hb (Lb v Hvb)).
    + intros [row|[]]; [|eauto]. intros [-> Hall]. split; [done|]. intros u x Hu. destruct (decide (u = v)) as [-> |]; [apply Hall|apply Hpre; lia].
  - intros r Hr. apply Msat_bind, Msat_free_arr.
    { simpl. intros x. specialize (O1 x). simpl in O1. lia. }
    intros w2 L2 C2 E2 T2. apply Msat_ret. splits.
    { apply cnt_perm. intros x. specialize (O1 x). specialize (C2 x). simpl in *. lia. }
    { congruence. }
    destruct r as [row|[]].
    + destruct Hr as [-> Hr]. split; [|done]. intros _. split; [done|]. intros v x. destruct (decide (v < length ga)) as [Hv|Hv]; [by apply Hr|].
      unfold adj. rewrite (lookup_ge_None_2 ga), (lookup_ge_None_2 gb) by lia. done.
    + destruct Hr as [v Hr]. split; [done|]. intros [_ Hall]. exfalso. apply Hr. apply Hall.
Qed.

(** ** Graphs made from parts *)

(** Outcome of the functions that make a graph with room for [m] arcs. *)
Definition made (rows : list (list nat)) (m : nat) (w : world) (r : ecode * digraph) (w' : world) : Prop :=
  wle w w' /\ w_tick w' = w_tick w /\
  (r.1 = ER_OK -> own w' (dg_blocks r.2) w /\ dg_rep cfg r.2 rows /\ dg_max r.2 = m /\ w_err w' = w_err w) /\
  (r.1 <> ER_OK -> own w' [] w /\ e_code (w_err w') = r.1 /\
     ((r.1 = ER_NO_MEMORY /\ ~ no_fail w) \/ (r.1 = ER_TOO_LARGE_PROBLEM /\ too_many_arcs cfg m = true))).

Lemma Msat_init_then rows n m (k : digraph -> M (ecode * digraph)) w :
  (forall w1 tb hb oh, out_rep hb m oh [] -> (m = 0 <-> oh = None) -> too_many_arcs cfg m = false ->
     Msat none (k (DG n m oh (Some (Arr tb (replicate (n + 1) None))))) w1 (fun r w2 =>
       w2 = w1 /\ r.1 = ER_OK /\ dg_blocks r.2 = hb ++ [tb] /\ dg_rep cfg r.2 rows /\ dg_max r.2 = m)) ->
  Msat none (let* r := init_digraph cfg n m in let '(ec, dg) := r in if decide (ec <> ER_OK) then Mret (ec, dg) else k dg) w (made rows m w).
Proof.
  intros Hk. apply Msat_bind. eapply Msat_mono; [apply Msat_init_digraph|]. intros [ec [n0 m0 oh ot]] w1 Hi.
  destruct (decide (ec <> ER_OK)) as [Hec|Hec].
  - destruct Hi as (L & T & _ & Hbad). destruct (Hbad Hec) as (Ho & Hwhy & Hcode). apply Msat_ret. split; [done|]. split; [done|]. split; [done|]. intros _. splits; auto. tauto.
  - assert (ec = ER_OK) as -> by (destruct (decide (ec = ER_OK)); tauto).
    destruct (init_post_out _ _ _ _ _ _ _ Hi eq_refl) as (tb & hb & Et & Hout & Hbl & Hn & Hmx & Hai & Hz & Hown). simpl in *. subst n0 m0 ot.
    eapply Msat_mono; [by apply (Hk w1 tb hb oh)|]. intros [ec dg] w2 (-> & E & Hb & Hr & Hm). simpl in *. subst ec.
    destruct Hi as (L & T & Hok & _). destruct (Hok eq_refl) as (_ & Herr & _). split; [done|]. split; [done|]. split; [|done]. intros _. simpl. rewrite Hb. auto.
Qed.

Lemma acopy_ok {A} db (d : list (option A)) sb s k : k <= length d -> k <= length s ->
  acopy (Some (Arr db d)) (Some (Arr sb s)) k = Ok (Some (Arr db (take k s ++ drop k d))).
Proof. intros. simpl. by rewrite decide_True. Qed.

Lemma copy_tail n tb (rows : list (list nat)) sb c : tail_rep c rows -> length rows = n ->
  acopy (Some (Arr tb (replicate (n + 1) None))) (Some (Arr sb c)) (n + 1) = Ok (Some (Arr tb c)).
Proof.
  intros [Hl _] Hn. rewrite acopy_ok; [|rewrite replicate_length; lia|lia]. rewrite take_ge by lia.
  rewrite drop_ge by (rewrite replicate_length; lia). by rewrite app_nil_r.
Qed.

Lemma copy_head hb m oh sb s xs : out_rep hb m oh [] -> 0 < m -> m <= length s -> filled s xs -> length xs <= m ->
  Rsat none (acopy oh (Some (Arr sb s)) m) (fun oh' => out_rep hb m oh' xs /\ oh' <> None).
Proof.
  intros [Hb Ho] Hm Hs Hf Hx. destruct oh as [[b c]|]; simpl in *; [|lia]. destruct Ho as [Ho _]. rewrite decide_True by lia. simpl. split; [|done].
  split; [done|]. simpl. split; [rewrite app_length, take_length, drop_length; lia|]. by apply filled_app_r, filled_take.
Qed.

Lemma Msat_from_pieces rows n m tb tc hb hc w :
  tail_rep tc rows -> length rows = n -> 0 < m -> m <= length hc -> filled hc (concat rows) -> length (concat rows) <= m ->
  Forall (Forall (fun x => x < n)) rows ->
  Msat none (digraph_from_pieces cfg n m (Some (Arr tb tc)) (Some (Arr hb hc))) w (made rows m w).
Proof.
  intros Ht Hn Hm Hh Hf Hc Hlt. unfold digraph_from_pieces.
  apply (Msat_init_then rows n m (fun dg =>
    let* t := lift (acopy (dg_tail dg) (Some (Arr tb tc)) (n + 1)) in
    let* h := lift (acopy (dg_head dg) (Some (Arr hb hc)) m) in
    Mret (ER_OK, DG (dg_n dg) (dg_max dg) h t))).
  intros w1 tb1 hb1 oh Ho Hz Hai. cbn [dg_tail dg_head dg_n dg_max]. apply Msat_bind, Msat_lift. rewrite (copy_tail n tb1 rows) by done.
  apply Msat_bind, Msat_lift. eapply Rsat_mono; [by apply (copy_head hb1 m oh hb hc (concat rows))|]. intros oh' [Ho' Hne].
  apply Msat_ret. splits; [done|done| |..].
  - unfold dg_blocks. simpl. destruct Ho' as [-> _]. done.
  - destruct Ho' as [_ Ho']. destruct oh' as [a|]; [|done]. destruct Ho' as [H1 H2]. constructor; simpl; auto.
    + eauto.
    + by rewrite Hn.
  - done.
Qed.

Lemma Msat_copy_digraph dg rows w : dg_rep cfg dg rows -> rows <> [] ->
  Msat none (copy_digraph cfg dg) w (made rows (length (concat rows)) w).
Proof.
  intros H Hne. unfold copy_digraph. rewrite (rep_n _ _ _ H). rewrite decide_False by (by destruct rows).
  apply Msat_bind, Msat_lift. rewrite (rep_tail_get _ _ _ _ H), offs_all by lia. simpl Rsat. set (m := length (concat rows)). set (n := length rows).
  apply (Msat_init_then rows n m (fun d =>
    let* t := lift (acopy (dg_tail d) (dg_tail dg) (n + 1)) in
    let* h := lift (if decide (0 < m) then acopy (dg_head d) (dg_head dg) m else Ok (dg_head d)) in
    Mret (ER_OK, DG (dg_n d) (dg_max d) h t))).
  intros w1 tb1 hb1 oh Ho Hz Hai. cbn [dg_tail dg_head dg_n dg_max]. destruct (rep_tail _ _ _ H) as (tb & tc & -> & Htr).
  apply Msat_bind, Msat_lift. rewrite (copy_tail n tb1 rows) by done. simpl Rsat.
  pose proof (rep_head _ _ _ H) as Hh. pose proof (rep_max _ _ _ H) as Hmx.
  apply Msat_bind, Msat_lift.
  assert (Rsat none (if decide (0 < m) then acopy oh (dg_head dg) m else Ok oh) (fun oh' => out_rep hb1 m oh' (concat rows) /\ (m = 0 <-> oh' = None))) as Hcp.
  { destruct (decide (0 < m)) as [Hm|Hm].
    - destruct (dg_head dg) as [[sb s]|]; [|destruct Hh as [_ E]; unfold m in Hm; rewrite E in Hm; simpl in Hm; lia]. simpl in Hh. destruct Hh as (H1 & H2 & H3).
      eapply Rsat_mono; [apply (copy_head hb1 m oh sb s (concat rows)); auto; unfold m in *; lia|]. intros oh' [? ?]. split; [done|]. split; [lia|done].
    - simpl. assert (m = 0) as Em by lia. unfold m in Em. apply nil_length_inv in Em. rewrite Em. split; [done|]. done. }
  eapply Rsat_mono; [exact Hcp|]. clear Hcp. intros oh' [Ho' Hz'].
  apply Msat_ret. splits; [done|done| |..].
  - unfold dg_blocks. simpl. destruct Ho' as [-> _]. done.
  - destruct Ho' as [_ Ho']. constructor; simpl; auto.
    + eauto.
    + destruct oh' as [a|]; [|done]. destruct Ho' as [H1 H2]. splits; auto. destruct (decide (0 < m)) as [|Hm]; [done|]. exfalso.
      assert (m = 0) as Em by lia. apply Hz' in Em. done.
    + apply (rep_lt _ _ _ H).
  - done.
Qed.

(** ** iscc_digraph_from_string *)

Lemma foldXR_relevant s cs : foldXR count_string s cs = foldXR count_string s (relevant cs).
Proof.
  revert s. induction cs as [|c cs IH]; intros [[v a] mx]; [done|]. unfold relevant. rewrite filter_cons. fold (relevant cs).
  destruct (decide (c = c_hash \/ c = c_dot \/ c = c_slash)) as [Hc|Hc].
  - cbn [foldXR]. destruct (count_string c (v, a, mx)) as [[s'|]|]; simpl; [apply IH|done|done].
  - rewrite <- IH. cbn [foldXR]. unfold count_string. rewrite !decide_False by tauto. done.
Qed.

Lemma foldR_relevant s cs : foldR (write_string cfg) s cs = foldR (write_string cfg) s (relevant cs).
Proof.
  revert s. induction cs as [|c cs IH]; intros [[[[pos row] col] head] tail]; [done|]. unfold relevant. rewrite filter_cons. fold (relevant cs).
  destruct (decide (c = c_hash \/ c = c_dot \/ c = c_slash)) as [Hc|Hc].
  - cbn [foldR]. destruct (write_string cfg c _) as [s'|]; simpl; [apply IH|done].
  - rewrite <- IH. cbn [foldR]. unfold write_string. rewrite !decide_False by tauto. cbn [Rbind]. rewrite ?decide_False by tauto. done.
Qed.

Definition trues (r : list bool) : nat := length (filter (fun b => b = true) r).

Lemma count_cells v a mx r : foldXR count_string (v, a, mx) (cell_char <$> r) = Ok (inl (v, a + length r, mx + trues r)).
Proof.
  revert a mx. induction r as [|b r IH]; intros a mx; [simpl; by rewrite !Nat.add_0_r|].
  rewrite fmap_cons. cbn [foldXR]. unfold trues. rewrite filter_cons. fold (trues r).
  destruct b; cbn [cell_char]; unfold count_string at 1.
  - rewrite !(decide_True (P := c_hash = c_hash \/ _)) by auto. rewrite (decide_True (P := c_hash = c_hash)) by done.
    rewrite (decide_False (P := c_hash = c_slash /\ _)) by (intros [? _]; done). rewrite (decide_False (P := c_hash = c_slash)) by done. cbn [Rbind].
    rewrite IH. rewrite decide_True by done. cbn [length]. rewrite <- !Nat.add_assoc. done.
  - rewrite !(decide_True (P := c_dot = c_hash \/ _)) by auto. rewrite (decide_False (P := c_dot = c_hash)) by done.
    rewrite (decide_False (P := c_dot = c_slash /\ _)) by (intros [? _]; done). rewrite (decide_False (P := c_dot = c_slash)) by done. cbn [Rbind].
    rewrite IH. rewrite decide_False by done. cbn [length]. rewrite <- !Nat.add_assoc. done.
Qed.

Fixpoint arcs_from (j : nat) (r : list bool) : list nat :=
  match r with
  | [] => []
  | b :: r => (if b : bool then [j] else []) ++ arcs_from (S j) r
  end.

Lemma arcs_from_length j r : length (arcs_from j r) = trues r.
Proof.
  revert j. induction r as [|b r IH]; intros j; [done|]. simpl. rewrite app_length, IH. unfold trues. rewrite filter_cons. destruct b.
  - by rewrite decide_True.
  - by rewrite decide_False.
Qed.

Lemma arcs_from_filter P `{!forall u, Decision (P u)} j r : (forall i, i < length r -> P (j + i) <-> r !! i = Some true) ->
  arcs_from j r = filter P (seq j (length r)).
Proof.
  revert j. induction r as [|b r IH]; intros j HP; [done|]. cbn [arcs_from length seq]. rewrite filter_cons.
  pose proof (HP 0 ltac:(simpl; lia)) as H0. rewrite Nat.add_0_r in H0. simpl in H0.
  rewrite <- IH.
  - destruct b; [rewrite decide_True by (by apply H0); done|]. rewrite decide_False; [done|]. intros [=]%H0.
  - intros i Hi. specialize (HP (S i) ltac:(simpl; lia)). simpl in HP. rewrite <- HP. by replace (j + S i) with (S j + i) by lia.
Qed.

Section Text.
Context (m : list (list bool)) (Hsq : square m).
Notation n := (length m).
Notation f := (matrix_arcs m).

Lemma row_arcs v r : m !! v = Some r -> arcs_from 0 r = f v.
Proof.
  intros Hv. unfold matrix_arcs. assert (length r = n) as <- by (exact (Forall_lookup_1 _ _ _ _ (proj2 Hsq) Hv)). apply arcs_from_filter.
  intros i Hi. unfold has. rewrite Hv. done.
Qed.

Lemma text_take v r stop : m !! v = Some r -> text stop (take (S v) m) = text stop (take v m) ++ (cell_char <$> r) ++ [stop].
Proof. intros Hv. unfold text. rewrite (take_S_r _ _ _ Hv), fmap_app, concat_app. simpl. by rewrite app_nil_r. Qed.

Lemma foldXR_app {A S T} (h : A -> S -> R (S + T)) s l1 l2 :
  foldXR h s (l1 ++ l2) = let! r := foldXR h s l1 in match r with inl s' => foldXR h s' l2 | inr t => Ok (inr t) end.
Proof. revert s. induction l1 as [|x l1 IH]; intros s; simpl; [done|]. destruct (h x s) as [[s'|t]|]; simpl; auto. Qed.

Lemma count_rows k : k <= n ->
  foldXR count_string (0, 0, 0) (text c_slash (take k m)) = Ok (inl ((if decide (k = 0) then 0 else n), k * n, length (outf f k))).
Proof.
  induction k as [|k IH]; intros Hk; [done|]. destruct (lookup_lt_is_Some_2 m k) as [r Hr]; [lia|].
  assert (length r = n) as Hl by (exact (Forall_lookup_1 _ _ _ _ (proj2 Hsq) Hr)).
  rewrite (text_take _ _ _ Hr), foldXR_app, IH by lia. cbn [Rbind]. rewrite foldXR_app, count_cells. cbn [Rbind foldXR].
  unfold count_string. rewrite (decide_False (P := c_slash = c_hash \/ c_slash = c_dot)) by (by intros [?|?]).
  rewrite (decide_False (P := c_slash = c_hash)) by done.
  rewrite (decide_True (P := c_slash = c_slash)) by done.
  rewrite outf_S, app_length, <- (row_arcs _ _ Hr), arcs_from_length, Hl.
  assert (0 < n) by lia.
  assert ((if decide (c_slash = c_slash /\ (if decide (k = 0) then 0 else n) = 0) then k * n + n else (if decide (k = 0) then 0 else n)) = n) as ->.
  { destruct (decide (k = 0)) as [-> |Hk0]; [by rewrite decide_True|]. rewrite decide_False; [done|]. intros [_ ?]. lia. }
  rewrite decide_False by lia.
  assert ((k * n + n) mod n = 0) as ->. { replace (k * n + n) with (S k * n) by lia. apply Nat.mod_mul. lia. }
  rewrite decide_False by lia. cbn [Rbind foldXR]. rewrite (decide_False (P := S k = 0)) by lia. do 4 f_equal. lia.
Qed.

Lemma write_cells hb cap r : too_many_arcs cfg cap = false ->
  forall row col head tail out, out_rep hb cap head out -> (N.of_nat (col + length r) <= pi_max cfg)%N -> length out + trues r <= cap ->
  Rsat none (foldR (write_string cfg) (length out, row, col, head, tail) (cell_char <$> r)) (fun '(pos', row', col', head', tail') =>
    pos' = length (out ++ arcs_from col r) /\ row' = row /\ tail' = tail /\ out_rep hb cap head' (out ++ arcs_from col r)).
Proof.
  intros Hai. induction r as [|b r IH]; intros row col head tail out Ho Hpi Hcap.
  { simpl. by rewrite app_nil_r. }
  rewrite fmap_cons. cbn [foldR]. apply Rsat_bind. unfold trues in Hcap. rewrite filter_cons in Hcap. fold (trues r) in Hcap. cbn [length] in Hpi.
  destruct b; cbn [cell_char]; unfold write_string at 1.
  - rewrite decide_True in Hcap by done. cbn [length] in Hcap. rewrite (decide_True (P := c_hash = c_hash)) by done.
    apply Rsat_bind, Rsat_bind. eapply out_rep_push; [exact Ho|fold (trues r) in Hcap; lia|]. intros head' Ho'. apply Rsat_Ok.
    rewrite (decide_True (P := c_hash = c_hash \/ _)) by auto. rewrite (decide_False (P := c_hash = c_slash)) by done. apply Rsat_Ok.
    fold (trues r) in Hcap.
    assert (wrapN (ai_max cfg) (length out + 1) = length (out ++ [col])) as ->.
    { rewrite app_length. apply too_many_arcs_wrap. eapply too_many_arcs_mono; [|exact Hai]. simpl. lia. }
    rewrite wrapN_small by lia. rewrite Nat.add_1_r. eapply Rsat_mono; [apply (IH row (S col) head' tail (out ++ [col])); [done|lia|rewrite app_length; simpl; lia]|].
    intros [[[[pos' row'] col'] head''] tail']. rewrite <- app_assoc. auto.
  - rewrite decide_False in Hcap by done. rewrite (decide_False (P := c_dot = c_hash)) by done. cbn [Rbind].
    rewrite (decide_True (P := c_dot = c_hash \/ _)) by auto. rewrite (decide_False (P := c_dot = c_slash)) by done. apply Rsat_Ok.
    rewrite wrapN_small by lia. rewrite Nat.add_1_r. eapply Rsat_mono; [apply (IH row (S col) head tail out); [done|lia|done]|].
    intros [[[[pos' row'] col'] head''] tail']. auto.
Qed.

Lemma write_rows hb cap tb oh ot : too_many_arcs cfg cap = false -> (N.of_nat n <= pi_max cfg)%N -> out_rep hb cap oh [] -> tail_upto tb n f 0 ot -> length (outf f n) <= cap ->
  forall k, k <= n -> Rsat none (foldR (write_string cfg) (0, 0, 0, oh, ot) (text c_slash (take k m))) (fun '(pos, row, col, head, tail) =>
    pos = length (outf f k) /\ row = k /\ col = 0 /\ out_rep hb cap head (outf f k) /\ tail_upto tb n f k tail).
Proof.
  intros Hai Hpi Ho Ht Hcap k. induction k as [|k IH]; intros Hk; [done|]. destruct (lookup_lt_is_Some_2 m k) as [r Hr]; [lia|].
  assert (length r = n) as Hl by (exact (Forall_lookup_1 _ _ _ _ (proj2 Hsq) Hr)).
  rewrite (text_take _ _ _ Hr), foldR_app. apply Rsat_bind. eapply Rsat_mono; [apply IH; lia|].
  intros [[[[pos row] col] head] tail] (-> & -> & -> & Ho' & Ht'). rewrite foldR_app. apply Rsat_bind.
  pose proof (outf_mono f (S k) n ltac:(lia)) as Hm. rewrite outf_S, app_length, <- (row_arcs _ _ Hr), arcs_from_length in Hm.
  eapply Rsat_mono; [apply (write_cells hb cap r Hai k 0 head tail (outf f k)); [done|rewrite Hl; simpl; lia|lia]|].
  intros [[[[pos' row'] col'] head'] tail'] (-> & -> & -> & Ho2). rewrite (row_arcs _ _ Hr), <- outf_S in *.
  cbn [foldR]. apply Rsat_bind. unfold write_string. rewrite (decide_False (P := c_slash = c_hash)) by done. cbn [Rbind].
  rewrite (decide_True (P := c_slash = c_slash)) by done. apply Rsat_bind. eapply tail_upto_push; [exact Ht'|lia|done|]. intros ot' Ht2.
  apply Rsat_Ok, Rsat_Ok. rewrite Nat.add_1_r. auto.
Qed.

Lemma tail_upto_again tb ot : tail_upto tb n f n ot -> Rsat none (aset ot n (length (outf f n))) (tail_upto tb n f n).
Proof.
  intros (c & -> & Hl & Hc). rewrite aset_cells by lia. simpl. rewrite list_insert_id; [by exists c|]. rewrite <- (outf_offs f n n) by lia. by apply Hc.
Qed.

Lemma describes_split cs : describes cs m ->
  relevant cs = text c_slash (take n m) \/ exists r, 1 < n /\ m !! (n - 1) = Some r /\ relevant cs = text c_slash (take (n - 1) m) ++ (cell_char <$> r).
Proof.
  intros [E|[Hn E]]; [left; by rewrite take_ge by lia|right]. destruct (lookup_lt_is_Some_2 m (n - 1)) as [r Hr]; [lia|]. exists r. splits; auto.
  apply (inj (.++ [c_slash])). rewrite E, <- app_assoc, <- (text_take _ _ _ Hr). rewrite take_ge by lia. done.
Qed.

Lemma Msat_from_string cs w : describes cs m -> (N.of_nat n <= pi_max cfg)%N ->
  Msat none (digraph_from_string cfg cs) w (made (f <$> seq 0 n) (length (outf f n)) w).
Proof.
  intros Hd Hpi. apply describes_split in Hd. assert (0 < n) as Hn by (destruct Hsq as [? _]; by destruct m; simpl; [|lia]).
  unfold digraph_from_string. rewrite foldXR_relevant.
  assert (exists a, foldXR count_string (0, 0, 0) (relevant cs) = Ok (inl (n, a, length (outf f n)))) as [a ->].
  { destruct Hd as [-> |(r & Hn1 & Hr & ->)].
    - rewrite count_rows by lia. rewrite decide_False by lia. eauto.
    - rewrite foldXR_app, count_rows by lia. cbn [Rbind]. rewrite count_cells, decide_False by lia. eexists. do 3 f_equal.
      assert (n = S (n - 1)) as E by lia. rewrite E at 2. rewrite outf_S, app_length, <- (row_arcs _ _ Hr), arcs_from_length. done. }
  apply Msat_bind, Msat_lift. simpl Rsat. set (cap := length (outf f n)).
  apply (Msat_init_then _ n cap (fun dg =>
      let* s := lift (
        let! tail := aset (dg_tail dg) 0 0 in
        let! s := foldR (write_string cfg) (0, 0, 0, dg_head dg, tail) cs in
        let '(pos, _, _, head, tail) := s in
        let! tail := aset tail n pos in
        Ok (head, tail)) in
      let '(head, tail) := s in
      Mret (ER_OK, DG (dg_n dg) (dg_max dg) head tail))).
  intros w1 tb hb oh Ho Hz Hai. cbn [dg_tail dg_head dg_n dg_max]. apply Msat_bind, Msat_lift.
  rewrite aset_cells by (rewrite replicate_length; lia). cbn [Rbind]. rewrite foldR_relevant.
  assert (tail_upto tb n f 0 (Some (Arr tb (<[0:=Some 0]> (replicate (n + 1) None))))) as Ht0.
  { eexists. split; [reflexivity|]. split; [rewrite insert_length, replicate_length; lia|]. intros k Hk. assert (k = 0) as -> by lia.
    rewrite list_lookup_insert by (rewrite replicate_length; lia). done. }
  pose proof (write_rows hb cap tb oh _ Hai Hpi Ho Ht0 ltac:(unfold cap; lia)) as Hw.
  assert (Rsat none (let! s := foldR (write_string cfg) (0, 0, 0, oh, Some (Arr tb (<[0:=Some 0]> (replicate (n + 1) None)))) (relevant cs) in
      let '(pos, _, _, head, tail) := s in let! tail := aset tail n pos in Ok (head, tail))
    (fun '(head, tail) => out_rep hb cap head (outf f n) /\ tail_upto tb n f n tail)) as Hall.
  { apply Rsat_bind. destruct Hd as [-> |(r & Hn1 & Hr & ->)].
    - eapply Rsat_mono; [apply Hw; lia|]. intros [[[[pos row] col] head] tail] (-> & -> & -> & Ho' & Ht'). apply Rsat_bind.
      eapply Rsat_mono; [by apply tail_upto_again|]. intros tail' Ht2. by apply Rsat_Ok.
    - rewrite foldR_app. apply Rsat_bind. eapply Rsat_mono; [apply Hw; lia|]. intros [[[[pos row] col] head] tail] (-> & -> & -> & Ho' & Ht').
      assert (length r = n) as Hl by (exact (Forall_lookup_1 _ _ _ _ (proj2 Hsq) Hr)).
      assert (outf f (n - 1) ++ arcs_from 0 r = outf f n) as Eo. { rewrite (row_arcs _ _ Hr), <- outf_S. f_equal. lia. }
      assert (length (outf f (n - 1)) + trues r <= cap) as Hcap by (unfold cap; rewrite <- Eo, app_length, arcs_from_length; lia).
      eapply Rsat_mono; [apply (write_cells hb cap r Hai (n - 1) 0 head tail (outf f (n - 1))); [done|rewrite Hl; simpl; lia|done]|].
      rewrite Eo. intros [[[[pos' row'] col'] head'] tail'] (-> & -> & -> & Ho2). apply Rsat_bind.
      assert (n = S (n - 1)) as En by lia. assert (forall Q, Rsat none (aset tail (n - 1 + 1) (length (outf f n))) Q -> Rsat none (aset tail n (length (outf f n))) Q) as Hch.
      { intros Q. by replace (n - 1 + 1) with n by lia. }
      apply Hch. eapply tail_upto_push; [exact Ht'|lia|by rewrite <- En|]. intros ot' Ht2. apply Rsat_Ok. split; [done|]. by rewrite <- En in Ht2. }
  eapply Rsat_mono; [exact Hall|]. intros [head tail] [Ho' Ht']. apply Msat_ret.
  assert (cap = 0 <-> head = None) as Hz'.
  { destruct Ho as [Hb1 _], Ho' as [Hb2 Ho']. rewrite Hz. destruct oh, head; simpl in *; split; intros; congruence. }
  destruct (dg_rep_assemble cfg n f tb hb cap head tail Ht' Ho' Hz') as [Hr Hb]; [|done|].
  - intros v Hv. apply Forall_forall. intros x [_ Hx]%elem_of_list_filter. apply elem_of_seq in Hx. lia.
  - splits; done.
Qed.
End Text.

(** ** iscc_print_digraph *)

Lemma Msat_print_digraph dg g w : dg_rep cfg dg g -> g <> [] -> no_fail w ->
  Msat none (print_digraph dg) w (fun out w' => w_live w' ≡ₚ w_live w /\ w_err w' = w_err w /\ out = text c_newline (matrix_of g) ++ [c_newline]).
Proof.
  intros H Hne Hnf. unfold print_digraph. rewrite (rep_n _ _ _ H). rewrite decide_False by (by destruct g). set (n := length g).
  apply Msat_bind, Msat_calloc_arr; [done|]. intros w1 b L1 O1 E1 T1. rewrite replicate_farr, tab_replicate.
  apply Msat_bind, Msat_lift.
  apply (forR_sat0 none (fun v '(row, out) => row = farr b (tab n (fun _ => false)) /\ out = text c_newline (take v (matrix_of g)))).
  - done.
  - intros v [row out] Hv [-> ->]. destruct (lookup_lt_is_Some_2 g v Hv) as [r Hr]. rewrite (for_arcs_fold cfg dg g v r _ _ H Hr).
    rewrite mark_arcs. 2:{ apply Forall_forall. intros x Hx. eapply rep_lookup_lt; [exact H|exact Hr|exact Hx]. }
    cbn [Rbind]. apply Rsat_bind.
    apply (forR_sat0 none (fun i '(row, out) => row = farr b (tab n (fun u => if decide (u < i) then false else if decide (u ∈ r) then true else false)) /\
      out = text c_newline (take v (matrix_of g)) ++ (cell_char <$> ((fun u => bool_decide (u ∈ r)) <$> seq 0 i)))).
    + split; [reflexivity|]. simpl. by rewrite app_nil_r.
    + intros i [row out] Hi [-> ->]. rewrite (aget_farr b _ i (bool_decide (i ∈ r))).
      2:{ rewrite tab_lookup by done. rewrite decide_False by lia. f_equal. }
      cbn [Rbind]. rewrite aset_farr by (by rewrite tab_length). cbn [Rbind]. rewrite tab_insert by done. apply Rsat_Ok. split.
      * do 3 f_equal. apply tab_ext. intros u _. destruct (decide (u = i)) as [-> |Hui]; [by rewrite decide_True by lia|].
        destruct (decide (u < i)); [by rewrite decide_True by lia|by rewrite (decide_False (P := u < S i)) by lia].
      * rewrite seq_S, !fmap_app, <- app_assoc. simpl. done.
    + intros [row out] [-> ->]. apply Rsat_Ok. split.
      * do 3 f_equal. apply tab_ext. intros u Hu. by rewrite decide_True.
      * assert (matrix_of g !! v = Some ((fun u => bool_decide (u ∈ r)) <$> seq 0 n)) as Hm by (unfold matrix_of; by rewrite list_lookup_fmap, Hr).
        rewrite (text_take _ _ _ _ Hm). by rewrite <- app_assoc.
  - intros [row out] [-> ->]. apply Msat_bind, Msat_free_arr.
    { simpl. intros x. specialize (O1 x). simpl in O1. lia. }
    intros w2 L2 C2 E2 T2. apply Msat_ret. splits.
    { apply cnt_perm. intros x. specialize (O1 x). specialize (C2 x). simpl in *. lia. }
    { congruence. }
    simpl. rewrite take_ge; [done|]. unfold matrix_of. by rewrite fmap_length.
Qed.
End Debug.

(** ** Claims *)

Lemma made_makes cfg rows n f m w : Msat none m w (made cfg rows (length (concat rows)) w) -> length rows = n -> (forall v, v < n -> adj rows v = f v) ->
  makes_graph cfg n f m w.
Proof.
  intros H Hl Hf. apply Msat_none in H as ([ec dg] & w' & E & (_ & _ & Hok & Hbad)).
  exists ec, dg, w'. split; [done|]. rewrite (num_arcs_rows rows n f) by done. split.
  - intros ->. destruct (Hok eq_refl) as (Ho & Hr & Hm & _). splits; [|done|].
    + by exists rows.
    + unfold mem_plus. apply cnt_perm. intros x. rewrite cnt_app. apply Ho.
  - intros Hec. destruct (Hbad Hec) as (Ho & Hc & Hw). splits; [|done|tauto]. unfold mem_plus. by apply own_perm.
Qed.

Lemma claim_copy_digraph cfg dg g w : dg_rep cfg dg g -> g <> [] -> makes_graph cfg (length g) (adj g) (copy_digraph cfg dg) w.
Proof. intros H Hne. eapply made_makes; [by apply Msat_copy_digraph|done|done]. Qed.

Lemma claim_from_string cfg m cs w : square m -> describes cs m -> (N.of_nat (length m) <= pi_max cfg)%N ->
  makes_graph cfg (length m) (matrix_arcs m) (digraph_from_string cfg cs) w.
Proof.
  intros Hsq Hd Hpi. eapply (made_makes _ (matrix_arcs m <$> seq 0 (length m))); [by apply Msat_from_string| |].
  - by rewrite fmap_length, seq_length.
  - intros v Hv. unfold adj. rewrite list_lookup_fmap, lookup_seq_lt by done. done.
Qed.

(** [tc] and [hc] hold the arcs of [g]: the first arc of vertex [v] is at
    [tc !! v], [hc] may have room to spare. *)
Definition pieces (g : list (list nat)) (tc hc : list (option nat)) : Prop :=
  length tc = S (length g) /\ (forall k, k <= length g -> tc !! k = Some (Some (length (concat (take k g))))) /\
  (forall j x, concat g !! j = Some x -> hc !! j = Some (Some x)) /\ length (concat g) <= length hc /\
  Forall (Forall (fun x => x < length g)) g.

Lemma filled_of {A} (c : list (option A)) xs : (forall j x, xs !! j = Some x -> c !! j = Some (Some x)) -> filled c xs.
Proof.
  intros H. exists (drop (length xs) c). rewrite <- (take_drop (length xs) c) at 1. f_equal. apply list_eq. intros i.
  destruct (xs !! i) as [x|] eqn:E.
  - rewrite lookup_take by (by eapply lookup_lt_Some). rewrite list_lookup_fmap, E. by apply H.
  - rewrite list_lookup_fmap, E. apply lookup_ge_None in E. by rewrite lookup_take_ge.
Qed.

Lemma claim_from_pieces cfg g tb tc hb hc w : pieces g tc hc -> hc <> [] ->
  exists ec dg w', digraph_from_pieces cfg (length g) (length hc) (Some (Arr tb tc)) (Some (Arr hb hc)) w = Ok ((ec, dg), w') /\
    (ec = ER_OK -> is_graph cfg dg (length g) (adj g) /\ dg_max dg = length hc /\ mem_plus w' (dg_blocks dg) w) /\
    (ec <> ER_OK -> mem_plus w' [] w /\ e_code (w_err w') = ec /\
       (ec = ER_NO_MEMORY /\ ~ no_fail w \/ ec = ER_TOO_LARGE_PROBLEM /\ too_many_arcs cfg (length hc) = true)).
Proof.
  intros (Hl & Ht & Hh & Hle & Hlt) Hne. pose proof (Msat_from_pieces cfg g (length g) (length hc) tb tc hb hc w) as H. feed specialize H.
  - split; [done|]. apply Ht.
  - done.
  - destruct hc; [done|simpl; lia].
  - done.
  - by apply filled_of.
  - done.
  - done.
  - apply Msat_none in H as ([ec dg] & w' & E & (_ & _ & Hok & Hbad)). exists ec, dg, w'. split; [done|]. split.
    + intros ->. destruct (Hok eq_refl) as (Ho & Hr & Hm & _). splits; [by exists g|done|]. unfold mem_plus. apply cnt_perm. intros x. rewrite cnt_app. apply Ho.
    + intros Hec. destruct (Hbad Hec) as (Ho & Hc & Hw). splits; [|done|tauto]. unfold mem_plus. by apply own_perm.
Qed.

Lemma claim_equal cfg dga dgb ga gb w : dg_rep cfg dga ga -> dg_rep cfg dgb gb -> no_fail w ->
  exists r w', digraphs_equal dga dgb w = Ok (r, w') /\ mem_plus w' [] w /\ w_err w' = w_err w /\
    (r = true <-> length ga = length gb /\ forall v x, x ∈ adj ga v <-> x ∈ adj gb v).
Proof. intros Ha Hb Hnf. apply (Msat_none _ _ _ (Msat_digraphs_equal cfg dga dgb ga gb w Ha Hb Hnf)). Qed.

Lemma claim_balanced cfg dg g k : config_ok cfg -> dg_rep cfg dg g -> (N.of_nat (length g) <= pi_max cfg)%N -> (N.of_nat k <= ai_max cfg)%N ->
  exists r, is_balanced_digraph cfg dg k = Ok r /\ (r = true <-> forall v, v < length g -> length (adj g v) = k).
Proof.
  intros (_ & Hc & _) H H1 H2. assert (ai_max cfg <= u64max)%N as H3 by (destruct Hc as [-> | ->]; done).
  eexists. split; [by apply (is_balanced_sat cfg dg g k)|].
  rewrite bool_decide_eq_true, Forall_lookup. split.
  - intros Hall v Hv. unfold adj. destruct (lookup_lt_is_Some_2 g v Hv) as [r Hr]. rewrite Hr. eauto.
  - intros Hall v r Hr. specialize (Hall v ltac:(by eapply lookup_lt_Some)). unfold adj in Hall. by rewrite Hr in Hall.
Qed.

Lemma claim_print cfg dg g w : dg_rep cfg dg g -> g <> [] -> no_fail w ->
  exists w', print_digraph dg w = Ok (text c_newline (matrix_of g) ++ [c_newline], w') /\ mem_plus w' [] w /\ w_err w' = w_err w.
Proof.
  intros H Hne Hnf.
  destruct (Msat_none _ _ _ (Msat_print_digraph cfg dg g w H Hne Hnf)) as (out & w' & E & Hl & He & ->). by exists w'.
Qed.

(** What a matrix says, what is printed: the same graph. *)
Lemma matrix_of_arcs g v x : v < length g -> Forall (Forall (fun x => x < length g)) g -> x ∈ matrix_arcs (matrix_of g) v <-> x ∈ adj g v.
Proof.
  intros Hv Hlt. unfold matrix_arcs. rewrite elem_of_list_filter. unfold has, matrix_of. rewrite fmap_length, list_lookup_fmap.
  destruct (lookup_lt_is_Some_2 g v Hv) as [r Hr]. unfold adj. rewrite Hr. simpl. rewrite list_lookup_fmap, elem_of_seq. split.
  - intros [E Hx]. rewrite lookup_seq_lt in E by lia. simpl in E. injection E as E. by apply bool_decide_eq_true in E.
  - intros Hx. assert (x < length g) as Hxl. { eapply Forall_lookup_1 in Hlt; [|exact Hr]. by eapply Forall_forall in Hlt. }
    rewrite lookup_seq_lt by lia. simpl. rewrite bool_decide_eq_true_2 by done. split; [done|lia].
Qed.
