(** What batch clustering is to compute, on label lists: the points are
    considered one after another. *)

From stdpp Require Import prelude list sorting.
From Verif Require Import Base GraphSpec AssignSpec.

(** Definitely assigned points, labels, number of clusters. A point may have a
    label without being definitely assigned. *)
Notation bstate := (list nat * labels * nat)%type.

(** The cluster around [v] with neighbours [c]: all of [c] if [v] is among the
    neighbours other than the last, else [v] takes the place of the last. *)
Definition members (k v : nat) (c : list nat) : list nat :=
  if decide (v ∈ take (k - 1) c) then c else take (k - 1) c ++ [v].

Definition give (ms : list nat) (i : nat) (L : labels) : labels :=
  imap (fun x o => if decide (x ∈ ms) then Some i else o) L.

Section Run.
Context (ign : bool) (k : nat) (N : nat -> list nat -> Prop).

(** Consideration of [v], whose neighbours may be any [c] with [N v c]. *)
Inductive batch_step (v : nat) : bstate -> bstate -> Prop :=
| bs_skip A L m : v ∈ A -> batch_step v (A, L, m) (A, L, m)
| bs_seed A L m c : v ∉ A -> N v c -> (forall x, x ∈ c -> x ∉ A) ->
    batch_step v (A, L, m) (members k v c ++ A, give (members k v c) m L, m + 1)
| bs_near A L m c j x : v ∉ A -> N v c -> list_find (fun x => x ∈ A) c = Some (j, x) ->
    batch_step v (A, L, m) (A, if ign then L else <[v := lab L x]> L, m).

Inductive batch_run : list nat -> bstate -> bstate -> Prop :=
| br_nil s : batch_run [] s s
| br_cons v vs s s' s'' : batch_step v s s' -> batch_run vs s' s'' -> batch_run (v :: vs) s s''.

Lemma batch_run_app vs vs' s s' s'' : batch_run vs s s' -> batch_run vs' s' s'' -> batch_run (vs ++ vs') s s''.
Proof. intros H. induction H; simpl; [done|]. intros. econstructor; eauto. Qed.

Lemma batch_step_mono v s s' : batch_step v s s' -> forall x, x ∈ s.1.1 -> x ∈ s'.1.1.
Proof. destruct 1; simpl; auto. intros y Hy. apply elem_of_app. by right. Qed.

(** Points assigned beforehand may as well be left out. *)
Lemma batch_run_skip (A0 : list nat) vs s s' : (forall x, x ∈ A0 -> x ∈ s.1.1) ->
  batch_run (filter (fun x => x ∉ A0) vs) s s' -> batch_run vs s s'.
Proof.
  revert s. induction vs as [|v vs IH]; intros s HA Hr; [done|]. rewrite filter_cons in Hr. destruct (decide (v ∉ A0)) as [Hv|Hv].
  - inversion_clear Hr as [|? ? ? s1 ? Hs Hr']. econstructor; [exact Hs|]. apply IH; [|done]. intros x Hx. eapply batch_step_mono; eauto.
  - destruct s as [[A L] m]. econstructor; [apply bs_skip; apply HA; destruct (decide (v ∈ A0)); tauto|]. apply IH; [done|done].
Qed.
End Run.

(** A deterministic choice of neighbours gives a unique result. *)
Lemma batch_run_det ign k (N : nat -> list nat -> Prop) (f : nat -> list nat) vs s s1 s2 : (forall v c, N v c -> c = f v) ->
  batch_run ign k N vs s s1 -> batch_run ign k N vs s s2 -> s1 = s2.
Proof.
  intros Hf H1. revert s2. induction H1 as [|v vs s t s1 Hst Hr IH]; intros s2 H2; inversion_clear H2 as [|? ? ? t' ? Hst' Hr']; [done|].
  assert (t = t') as <-; [|by apply IH].
  destruct Hst as [A L m HA|A L m c HA HN Hc|A L m c j x HA HN Hc]; inversion Hst' as [? ? ? HA'|? ? ? c' HA' HN' Hc'|? ? ? c' j' x' HA' HN' Hc']; subst; try done.
  - by rewrite (Hf _ _ HN), (Hf _ _ HN').
  - exfalso. rewrite (Hf _ _ HN) in Hc. rewrite (Hf _ _ HN') in Hc'. apply list_find_Some in Hc' as (Hl & Hx & _). eapply Hc; [|exact Hx]. by eapply elem_of_list_lookup_2.
  - exfalso. rewrite (Hf _ _ HN) in Hc. rewrite (Hf _ _ HN') in Hc'. apply list_find_Some in Hc as (Hl & Hx & _). eapply Hc'; [|exact Hx]. by eapply elem_of_list_lookup_2.
  - rewrite (Hf _ _ HN) in Hc. rewrite (Hf _ _ HN') in Hc'. rewrite Hc in Hc'. injection Hc' as <- <-. done.
Qed.

Lemma give_length ms i L : length (give ms i L) = length L.
Proof. apply imap_length. Qed.

Lemma lab_give ms i L x : x < length L -> lab (give ms i L) x = if decide (x ∈ ms) then Some i else lab L x.
Proof. intros H. unfold lab, give. rewrite list_lookup_imap, (lab_lookup _ _ H). simpl. unfold lab. by destruct (decide (x ∈ ms)). Qed.

Lemma lab_insert L x y o : x < length L -> lab (<[x := o]> L) y = if decide (y = x) then o else lab L y.
Proof.
  intros H. unfold lab. destruct (decide (y = x)) as [->|Hne]; [by rewrite list_lookup_insert|by rewrite list_lookup_insert_ne].
Qed.

(** ** Invariants of a run *)

Lemma filter_keep {A} (P : A -> Prop) `{forall x, Decision (P x)} l : Forall P l -> filter P l = l.
Proof. induction 1 as [|x l Hx _ IH]; [done|]. rewrite filter_cons_True by done. by rewrite IH. Qed.

Section Inv.
Context (ign : bool) (k n : nat) (N : nat -> list nat -> Prop).
Hypothesis (Hk : 0 < k).
Hypothesis (HN : forall v c, v < n -> N v c -> NoDup c /\ length c = k /\ Forall (fun x => x < n) c).

Record binv (s : bstate) : Prop := {
  bi_len : length s.1.2 = n;
  bi_lt : Forall (fun x => x < n) s.1.1;
  bi_nodup : NoDup s.1.1;
  bi_lab : forall x, x ∈ s.1.1 -> is_Some (lab s.1.2 x);
  bi_max : forall x i, lab s.1.2 x = Some i -> i < s.2;
  bi_size : forall i, i < s.2 -> length (filter (fun x => lab s.1.2 x = Some i) s.1.1) = k;
  bi_total : length s.1.1 = s.2 * k
}.

Lemma members_facts v c : v < n -> N v c ->
  NoDup (members k v c) /\ length (members k v c) = k /\ v ∈ members k v c /\ Forall (fun x => x < n) (members k v c) /\
  (forall x, x ∈ members k v c -> x = v \/ x ∈ c).
Proof.
  intros Hv Hc. destruct (HN v c Hv Hc) as (H1 & H2 & H3). unfold members.
  assert (forall x, x ∈ take (k - 1) c -> x ∈ c) as Hin.
  { intros x (i & Hi & _)%elem_of_take. by eapply elem_of_list_lookup_2. }
  destruct (decide (v ∈ take (k - 1) c)) as [H|H].
  - splits; auto.
  - rewrite Forall_forall in H3. splits.
    + apply NoDup_app. splits.
      * rewrite <- (take_drop (k - 1) c) in H1. by apply NoDup_app in H1 as [? _].
      * intros x Hx ->%elem_of_list_singleton. done.
      * apply NoDup_singleton.
    + rewrite app_length, take_length. simpl. lia.
    + set_solver.
    + apply Forall_forall. intros x [Hx|Hx%elem_of_list_singleton]%elem_of_app; [auto|congruence].
    + intros x [Hx|Hx%elem_of_list_singleton]%elem_of_app; auto.
Qed.

Lemma batch_step_inv v s s' : v < n -> batch_step ign k N v s s' -> binv s -> binv s'.
Proof.
  intros Hv Hs [I1 I2 I3 I4 I5 I6 I7]. destruct Hs as [A L m HA|A L m c HA Hc Hno|A L m c j x HA Hc Hf]; simpl in *.
  - by constructor.
  - destruct (members_facts v c Hv Hc) as (M1 & M2 & M3 & M4 & M5). set (ms := members k v c) in *.
    assert (forall x, x ∈ ms -> x ∉ A) as Hdis. { intros x Hx. destruct (M5 x Hx) as [->|?]; auto. }
    assert (forall x, x < n -> lab (give ms m L) x = if decide (x ∈ ms) then Some m else lab L x) as Hlab.
    { intros x Hx. apply lab_give. lia. }
    rewrite Forall_forall in I2, M4.
    constructor; simpl.
    + by rewrite give_length.
    + apply Forall_app. split; by apply Forall_forall.
    + apply NoDup_app. splits; auto.
    + intros x Hx. apply elem_of_app in Hx as [Hx|Hx]; rewrite Hlab by auto.
      * rewrite decide_True by done. eauto.
      * rewrite decide_False; [auto|]. intros ?. by eapply Hdis.
    + intros x i Hx. pose proof (lab_lt _ _ _ Hx) as Hxl. rewrite give_length in Hxl. rewrite Hlab in Hx by lia.
      destruct (decide (x ∈ ms)); [injection Hx; lia|]. specialize (I5 x i Hx). lia.
    + intros i Hi. rewrite filter_app, app_length. destruct (decide (i = m)) as [->|Hne].
      * assert (filter (fun x => lab (give ms m L) x = Some m) ms = ms) as ->.
        { clear -Hlab M4. assert (Forall (fun x => lab (give ms m L) x = Some m) ms) as H.
          { apply Forall_forall. intros x Hx. rewrite Hlab by auto. by rewrite decide_True. }
          by apply filter_keep. }
        assert (filter (fun x => lab (give ms m L) x = Some m) A = []) as ->; [|simpl; lia].
        destruct (filter (fun x => lab (give ms m L) x = Some m) A) as [|y l] eqn:E; [done|]. exfalso.
        assert (y ∈ filter (fun x => lab (give ms m L) x = Some m) A) as Hy by (rewrite E; left). apply elem_of_list_filter in Hy as [Hy HyA].
        rewrite Hlab in Hy by auto. rewrite decide_False in Hy by (intros ?; by eapply Hdis). specialize (I5 _ _ Hy). lia.
      * assert (filter (fun x => lab (give ms m L) x = Some i) ms = []) as ->.
        { destruct (filter (fun x => lab (give ms m L) x = Some i) ms) as [|y l] eqn:E; [done|]. exfalso.
          assert (y ∈ filter (fun x => lab (give ms m L) x = Some i) ms) as Hy by (rewrite E; left). apply elem_of_list_filter in Hy as [Hy HyA].
          rewrite Hlab in Hy by auto. rewrite decide_True in Hy by done. congruence. }
        simpl. rewrite <- (I6 i) by lia. assert (forall x, x ∈ A -> lab (give ms m L) x = Some i <-> lab L x = Some i) as Heq.
        { intros x Hx. rewrite Hlab by auto. rewrite decide_False; [done|]. intros ?. by eapply Hdis. }
        clear -Heq. induction A as [|x A IH]; [done|]. rewrite !filter_cons. pose proof (Heq x ltac:(left)) as Hx.
        destruct (decide (lab (give ms m L) x = Some i)), (decide (lab L x = Some i)); try tauto; simpl; rewrite IH; auto; intros; apply Heq; by right.
    + rewrite app_length. lia.
  - destruct ign; [by constructor|]. apply list_find_Some in Hf as (Hj & HxA & _). destruct (I4 x HxA) as [i Hi].
    assert (forall y, lab (<[v := lab L x]> L) y = if decide (y = v) then lab L x else lab L y) as Hlab by (intros y; apply lab_insert; lia).
    constructor; simpl; auto.
    + by rewrite insert_length.
    + intros y Hy. rewrite Hlab. destruct (decide (y = v)); [rewrite Hi; eauto|auto].
    + intros y i' Hy. rewrite Hlab in Hy. destruct (decide (y = v)); [eapply I5; eauto|eauto].
    + intros i' Hi'. rewrite <- (I6 i' Hi'). f_equal. clear -HA Hlab. induction A as [|y A IH]; [done|]. rewrite !filter_cons.
      apply not_elem_of_cons in HA as [H1 H2]. rewrite Hlab. rewrite (decide_False (P := y = v)) by congruence.
      destruct (decide (lab L y = Some i')); rewrite IH; auto.
Qed.

Lemma batch_run_inv vs s s' : Forall (fun v => v < n) vs -> batch_run ign k N vs s s' -> binv s -> binv s'.
Proof.
  intros Hv Hr. induction Hr as [|v vs s t s' Hs Hr IH]; [done|]. inversion_clear Hv. intros Hb. apply IH; [done|]. by eapply batch_step_inv.
Qed.

Lemma binv_init : binv ([], replicate n None, 0).
Proof.
  constructor; simpl; auto; try lia.
  - apply replicate_length.
  - constructor.
  - intros x Hx. by apply elem_of_nil in Hx.
  - intros x i Hx. unfold lab in Hx. destruct (replicate n None !! x) as [o|] eqn:E; [|done]. apply lookup_replicate_1 in E as [-> _]. done.
Qed.

(** Definitely assigned points keep their labels. *)
Lemma batch_step_keeps v s s' x : v < n -> batch_step ign k N v s s' -> binv s -> x ∈ s.1.1 -> lab s'.1.2 x = lab s.1.2 x.
Proof.
  intros Hv Hs [I1 I2 _ _ _ _ _] Hx. rewrite Forall_forall in I2. destruct Hs as [A L m HA|A L m c HA Hc Hno|A L m c j y HA Hc Hf]; simpl in *; auto.
  - rewrite lab_give by (rewrite I1; auto). rewrite decide_False; [done|]. intros Hm. destruct (members_facts v c Hv Hc) as (_ & _ & _ & _ & M5).
    destruct (M5 x Hm) as [-> |?]; [done|]. by eapply Hno.
  - destruct ign; [done|]. rewrite lab_insert by lia. rewrite decide_False; [done|]. by intros ->.
Qed.

(** A considered point is assigned, or has a label unless [ign], or is near an assigned one. *)
Lemma batch_step_done v s s' : v < n -> batch_step ign k N v s s' -> binv s ->
  is_Some (lab s'.1.2 v) \/ (ign = true /\ exists c x, N v c /\ x ∈ c /\ x ∈ s'.1.1).
Proof.
  intros Hv Hs [I1 I2 _ I4 _ _ _]. destruct Hs as [A L m HA|A L m c HA Hc Hno|A L m c j y HA Hc Hf]; simpl in *; auto.
  - left. rewrite lab_give by lia. destruct (members_facts v c Hv Hc) as (_ & _ & M3 & _). rewrite decide_True by done. eauto.
  - apply list_find_Some in Hf as (Hj & HyA & _). destruct ign.
    + right. split; [done|]. exists c, y. splits; auto. by eapply elem_of_list_lookup_2.
    + left. rewrite lab_insert by lia. rewrite decide_True by done. auto.
Qed.

(** Labels are never taken away. *)
Lemma batch_step_labelled v s s' x : v < n -> batch_step ign k N v s s' -> binv s -> is_Some (lab s.1.2 x) -> is_Some (lab s'.1.2 x).
Proof.
  intros Hv Hs [I1 I2 _ I4 _ _ _] Hx. destruct Hs as [A L m HA|A L m c HA Hc Hno|A L m c j y HA Hc Hf]; simpl in *; auto.
  - destruct Hx as [i Hi]. pose proof (lab_lt _ _ _ Hi). rewrite lab_give by lia. destruct (decide (x ∈ members k v c)); eauto.
  - apply list_find_Some in Hf as (Hj & HyA & _). destruct ign; [done|]. rewrite lab_insert by lia. destruct (decide (x = v)); auto.
Qed.

Lemma batch_run_labelled vs s s' x : Forall (fun v => v < n) vs -> batch_run ign k N vs s s' -> binv s -> is_Some (lab s.1.2 x) -> is_Some (lab s'.1.2 x).
Proof.
  intros Hv Hr. induction Hr as [|v vs s t s' Hs Hr IH]; [done|]. inversion_clear Hv. intros Hb Hx. apply IH; [done|by eapply batch_step_inv|by eapply batch_step_labelled].
Qed.

Lemma batch_run_mono vs s s' x : batch_run ign k N vs s s' -> x ∈ s.1.1 -> x ∈ s'.1.1.
Proof. intros Hr. induction Hr as [|v vs s t s' Hs Hr IH]; [done|]. intros Hx. apply IH. by eapply batch_step_mono. Qed.

Lemma batch_run_done vs s s' v : Forall (fun v => v < n) vs -> batch_run ign k N vs s s' -> binv s -> v ∈ vs ->
  is_Some (lab s'.1.2 v) \/ (ign = true /\ exists c x, N v c /\ x ∈ c /\ x ∈ s'.1.1).
Proof.
  intros Hv Hr. induction Hr as [|u vs s t s' Hs Hr IH]; intros Hb Hin; [by apply elem_of_nil in Hin|]. inversion_clear Hv as [|? ? Hu Hv'].
  assert (binv t) as Hbt by (by eapply batch_step_inv). apply elem_of_cons in Hin as [->|Hin]; [|by apply IH].
  destruct (batch_step_done u s t Hu Hs Hb) as [Hd|(Hi & c & x & Hc & Hx & HxA)].
  - left. by eapply batch_run_labelled.
  - right. split; [done|]. exists c, x. splits; auto. by eapply batch_run_mono.
Qed.

(** With [ign], exactly the definitely assigned points have labels. *)
Definition only_assigned (s : bstate) : Prop := forall x, is_Some (lab s.1.2 x) -> x ∈ s.1.1.

Lemma batch_run_only vs s s' : ign = true -> Forall (fun v => v < n) vs -> batch_run ign k N vs s s' -> binv s -> only_assigned s -> only_assigned s'.
Proof.
  intros Hi Hv Hr. induction Hr as [|v vs s t s' Hs Hr IH]; [done|]. inversion_clear Hv. intros Hb Ho. apply IH; [done|by eapply batch_step_inv|].
  pose proof Hb as [I1 I2 _ _ _ _ _]. clear IH Hr. destruct Hs as [A L m HA|A L m c HA Hc Hno|A L m c j y HA Hc Hf]; rewrite ?Hi; try done.
  intros x Hx. simpl in *. apply elem_of_app. destruct Hx as [i Hx]. pose proof (lab_lt _ _ _ Hx) as Hl. rewrite give_length in Hl. rewrite lab_give in Hx by done.
  destruct (decide (x ∈ members k v c)); [auto|]. right. apply Ho. eauto.
Qed.
End Inv.

(** Only assigned and considered points get labels. *)
Lemma batch_run_touched ign k N vs s s' x : batch_run ign k N vs s s' -> is_Some (lab s'.1.2 x) ->
  is_Some (lab s.1.2 x) \/ x ∈ s'.1.1 \/ x ∈ vs.
Proof.
  induction 1 as [|v vs s t s' Hs Hr IH]; [auto|]. intros Hx. destruct (IH Hx) as [Ht|[?|?]]; [|auto|right; right; by right].
  destruct Hs as [A L m HA|A L m c HA Hc Hno|A L m c j y HA Hc Hf]; simpl in *; auto.
  - destruct Ht as [i Hi]. pose proof (lab_lt _ _ _ Hi) as Hl. rewrite give_length in Hl. rewrite lab_give in Hi by done.
    destruct (decide (x ∈ members k v c)) as [Hm|]; [|left; eauto]. right. left.
    assert (forall y, y ∈ members k v c ++ A -> y ∈ s'.1.1) as Hmono; [|apply Hmono; set_solver].
    intros y Hy. by eapply (batch_run_mono ign k N vs (members k v c ++ A, give (members k v c) m L, m + 1)).
  - destruct ign; [auto|]. destruct (decide (x = v)) as [->|Hne]; [right; right; left|]. left.
    destruct (decide (v < length L)) as [Hv|Hv]; [|by rewrite list_insert_ge in Ht by lia].
    rewrite lab_insert in Ht by done. by rewrite decide_False in Ht.
Qed.

Lemma batch_run_count ign k N vs s s' : batch_run ign k N vs s s' -> s.2 <= s'.2.
Proof. induction 1 as [|v vs s t s' Hs Hr IH]; [done|]. destruct Hs; simpl in *; lia. Qed.

(** No cluster is made only if no point is considered. *)
Lemma batch_run_none ign k N vs L s' : batch_run ign k N vs ([], L, 0) s' -> s'.2 = 0 -> vs = [] /\ s' = ([], L, 0).
Proof.
  intros H H0. inversion H as [|v vs' ? t ? Hs Hr]; subst; [done|]. exfalso.
  apply batch_run_count in Hr. inversion Hs as [? ? ? Hv|? ? ? c Hv Hc Hno|? ? ? c j y Hv Hc Hf]; subst; simpl in *; try lia.
  - by apply elem_of_nil in Hv.
  - apply list_find_Some in Hf as (_ & Hy & _). by apply elem_of_nil in Hy.
Qed.

Lemma batch_run_nodup_members (k n : nat) (A : list nat) (m : nat) : NoDup A -> Forall (fun x => x < n) A -> length A = m * k -> m * k <= n.
Proof.
  intros H1 H2 <-. rewrite <- (seq_length n 0). apply submseteq_length, NoDup_submseteq; [done|]. intros x Hx. rewrite Forall_forall in H2.
  apply elem_of_seq. specialize (H2 x Hx). lia.
Qed.
