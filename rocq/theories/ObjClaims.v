(** Claims about clustering objects as a user sees them. *)

From Coq Require Import Strings.String.
From stdpp Require Import prelude list gmap.
From Coq Require Import NArith ZArith.
From Verif Require Import Base World Options Mem DigraphRep DigraphDiff BatchProof Obj ObjRun ObjProof.
Open Scope list_scope. Open Scope nat_scope.

(** The labels an object shows: the first ones of its array. *)
Definition shown (h : heap) (p : nat) : option (list (option Z)) :=
  o ← h_obj h !! p; b ← ob_label o; l ← h_arr h !! b; Some (take (ob_n o) l).
Definition num_points (h : heap) (p : nat) : option nat := ob_n <$> h_obj h !! p.
Definition num_clusters (h : heap) (p : nat) : option nat := ob_k <$> h_obj h !! p.

(** The operations that may change or remove the object [p]. *)
Definition works_on (o : op) (p : nat) : Prop := match o with OFree (Some q) | ORun _ q => p = q | _ => False end.
(** The operations by which the user has an array of theirs written or removed. *)
Definition user_writes (o : op) (b : nat) : Prop :=
  match o with OLabels _ _ (Some b') | OUserSet b' _ _ | OUserDrop b' => b = b' | _ => False end.

Section Claims.
Context (cfg : config).

Lemma inv_fresh h : fresh_heap h -> inv cfg h.
Proof.
  intros (E1 & E2 & E3). constructor; rewrite ?E1, ?E2, ?E3.
  - by rewrite map_to_list_empty.
  - split; rewrite E1; constructor.
  - intros b l. by rewrite lookup_empty.
  - intros p o. by rewrite lookup_empty.
  - intros p o. by rewrite lookup_empty.
  - intros p o b. by rewrite lookup_empty.
Qed.

Lemma inv_steps h os h' : inv cfg h -> steps cfg h os h' -> inv cfg h'.
Proof.
  intros Hi Hs. induction Hs as [|h o r h1 os h2 Hl E Hs IH]; [done|]. apply IH. destruct (step_safe cfg h o Hi Hl) as (r' & h' & E' & Hi' & _). congruence.
Qed.

Lemma reachable_inv h : reachable cfg h -> inv cfg h.
Proof. intros (h0 & os & H0 & Hs). eapply inv_steps; [by apply inv_fresh|done]. Qed.

Lemma steps_app h1 os1 h2 os2 h3 : steps cfg h1 os1 h2 -> steps cfg h2 os2 h3 -> steps cfg h1 (os1 ++ os2) h3.
Proof. induction 1; simpl; [done|]. intros. econstructor; eauto. Qed.

Lemma reachable_steps h os h' : reachable cfg h -> steps cfg h os h' -> reachable cfg h'.
Proof. intros (h0 & os0 & H0 & Hs) Hs'. exists h0, (os0 ++ os). split; [done|]. by eapply steps_app. Qed.

Lemma reachable_step h o r h' : reachable cfg h -> legal cfg h o -> step cfg o h = Ok (r, h') -> reachable cfg h'.
Proof. intros H Hl E. eapply (reachable_steps h [o]); [done|]. econstructor; [done..|constructor]. Qed.

Lemma step_kept h o r h' : inv cfg h -> legal cfg h o -> step cfg o h = Ok (r, h') -> inv cfg h' /\ kept h o h'.
Proof. intros Hi Hl E. destruct (step_safe cfg h o Hi Hl) as (r' & h1 & E' & ?). assert (h1 = h') as -> by congruence. done. Qed.

(** ** C41 *)

Lemma claim_safe h o : reachable cfg h -> legal cfg h o -> exists r h', step cfg o h = Ok (r, h').
Proof. intros H Hl. destruct (step_safe cfg h o (reachable_inv _ H) Hl) as (r & h' & E & _). eauto. Qed.

Lemma claim_nothing_left h : reachable cfg h -> h_obj h = ∅ -> w_live (h_w h) = [].
Proof. intros H E. apply reachable_inv in H. pose proof (i_live _ _ H) as Hl. rewrite E, map_to_list_empty in Hl. by apply Permutation_nil_r in Hl. Qed.

Lemma claim_storage h p : reachable cfg h -> is_Some (h_obj h !! p) ->
  ptr_initialized cfg (Some p) h = Ok (true, h) /\
  (exists n k, num_points h p = Some n /\ num_clusters h p = Some k /\ (k <> 0 -> exists l, shown h p = Some l) /\ (forall l, shown h p = Some l -> length l = n)).
Proof.
  intros H [o Eo]. apply reachable_inv in H. pose proof (i_init _ _ H _ _ Eo) as Hin. split.
  - unfold ptr_initialized, Hbind, get_obj. by rewrite Eo, Hin.
  - exists (ob_n o), (ob_k o). unfold num_points, num_clusters, shown. rewrite Eo. simpl. splits; auto.
    + intros Hk. destruct o as [v n k lab ext]. apply init_true in Hin as (_ & _ & _ & _ & [?|?]); simpl in *; [done|]. destruct lab as [b|]; [|done].
      destruct (i_label _ _ H _ _ b Eo eq_refl) as (l & El & _). simpl. rewrite El. simpl. eauto.
    + intros l. destruct (ob_label o) as [b|] eqn:Eb; simpl; [|done]. destruct (i_label _ _ H _ _ b Eo Eb) as (l' & El & Hlen & _). rewrite El. simpl. intros [= <-]. rewrite take_length. lia.
Qed.

Lemma claim_user_arrays h o r h' b l : reachable cfg h -> legal cfg h o -> step cfg o h = Ok (r, h') -> user_arr h b l -> o <> OUserDrop b ->
  exists l', user_arr h' b l' /\ length l' = length l /\ (~ user_writes o b -> (forall f p ob, o = ORun f p -> h_obj h !! p = Some ob -> ob_label ob <> Some b) -> l' = l).
Proof.
  intros H Hl E Hu Hd. apply reachable_inv in H. destruct (step_kept _ _ _ _ H Hl E) as [Hi' K]. destruct Hu as [Eb Hb]. destruct (k_user _ _ _ K b l) as (l' & El' & Hlen); [by split|done|].
  exists l'. splits; auto.
  - split; [done|]. intros Hin. apply (k_live _ _ _ K) in Hin as [?|?]; [done|]. apply (i_arr _ _ H) in Eb. lia.
  - intros Hw Hr. assert (h_arr h' !! b = Some l); [|congruence]. apply K; [done|]. intros Ht. destruct o as [| | | |p len [b'|]|[p|]| | | |f p]; simpl in *; try done.
    + destruct Ht as (ob & Eo & Hin). apply Hb. by eapply inv_owned.
    + destruct Ht as (ob & Eo & Hin). by eapply Hr.
Qed.

(** ** C42 *)

(** The object's labels, if any, are its own. *)
Definition own_storage (o : obj) : Prop := ob_label o = None \/ ob_ext o = false.

Lemma frame h o r h' p ob : inv cfg h -> legal cfg h o -> step cfg o h = Ok (r, h') -> h_obj h !! p = Some ob -> ~ works_on o p ->
  (forall b, ob_label ob = Some b -> ~ touches h o b) -> h_obj h' !! p = Some ob /\ shown h' p = shown h p.
Proof.
  intros Hi Hl E Ep Hw Ht. destruct (step_kept _ _ _ _ Hi Hl E) as [Hi' K]. pose proof (k_obj _ _ _ K _ _ Ep Hw) as Ep'. split; [done|]. unfold shown. rewrite Ep, Ep'. simpl.
  destruct (ob_label ob) as [b|] eqn:Eb; simpl; [|done]. destruct (i_label _ _ Hi _ _ _ Ep Eb) as (l & El & _). rewrite (k_arr _ _ _ K _ _ El) by auto. by rewrite El.
Qed.

Lemma label_owned o b : ob_label o = Some b -> ob_ext o = false -> b ∈ owned o.
Proof. intros E1 E2. unfold owned. rewrite E1, E2. by left. Qed.

(** An array in use by an object that does not own it is not in use by an owner. *)
Lemma no_overlap h p q o o' b : inv cfg h -> h_obj h !! p = Some o -> h_obj h !! q = Some o' -> p <> q -> own_storage o -> ob_label o = Some b -> ob_label o' = Some b -> False.
Proof.
  intros Hi E E' Hne [?|Hx] Eb Eb'; [congruence|]. pose proof (label_owned _ _ Eb Hx) as Hb. destruct (ob_ext o') eqn:Ex.
  - destruct (i_label _ _ Hi _ _ _ E' Eb') as (l & _ & _ & _ & H4). apply (H4 Ex). by eapply (inv_owned cfg h p o).
  - eapply (inv_owner cfg h p q o o' b); eauto. by apply label_owned.
Qed.

Lemma frame_owner h o r h' p ob : inv cfg h -> legal cfg h o -> step cfg o h = Ok (r, h') -> h_obj h !! p = Some ob -> own_storage ob -> ~ works_on o p ->
  h_obj h' !! p = Some ob /\ shown h' p = shown h p.
Proof.
  intros Hi Hl E Ep Hown Hw. eapply frame; eauto. intros b Eb Ht. destruct Hown as [?|Hx]; [congruence|]. pose proof (label_owned _ _ Eb Hx) as Hb. pose proof (inv_owned cfg _ _ _ _ Hi Ep Hb) as Hlive.
  destruct o as [| | | |q len [b'|]|[q|]| |b' i x|b'|f q]; simpl in Ht, Hl, Hw; try done.
  - subst b'. destruct Hl as [_ (l & [_ Hn] & _)]. done.
  - destruct Ht as (oq & Eq & Hin). eapply (inv_owner cfg h p q ob oq b); eauto.
  - subst b'. destruct Hl as (l & [_ Hn] & _). done.
  - subst b'. destruct Hl as [(l & _ & Hn) _]. done.
  - destruct Ht as (oq & Eq & Hin). eapply (no_overlap h p q ob oq b); eauto. by right.
Qed.

(** Work on an owner leaves the others alone. *)
Lemma frame_other h o r h' p ob q oq : inv cfg h -> legal cfg h o -> step cfg o h = Ok (r, h') -> h_obj h !! p = Some ob -> h_obj h !! q = Some oq -> p <> q -> own_storage oq -> works_on o q ->
  h_obj h' !! p = Some ob /\ shown h' p = shown h p.
Proof.
  intros Hi Hl E Ep Eq Hne Hown Hw. eapply frame; eauto.
  - intros Hp. destruct o as [| | | |? ? ?|[x|]| | | |f x]; simpl in *; try done; congruence.
  - intros b Eb Ht. destruct o as [| | | |? ? [?|]|[x|]| | | |f x]; simpl in *; try done; subst x; destruct Ht as (o' & Eo' & Hin); assert (o' = oq) as -> by congruence.
    + destruct Hown as [Hn|Hx]; unfold owned in Hin; [rewrite Hn in Hin; destruct (ob_ext oq); by apply elem_of_nil in Hin|]. rewrite Hx in Hin. destruct (ob_label oq) as [b'|] eqn:El; [|by apply elem_of_nil in Hin]. apply elem_of_list_singleton in Hin as ->.
      eapply (no_overlap h q p oq ob b'); eauto. by right.
    + eapply (no_overlap h q p oq ob b); eauto.
Qed.

Lemma run_own f p h r h' ob ob' : legal cfg h (ORun f p) -> step cfg (ORun f p) h = Ok (r, h') -> h_obj h !! p = Some ob -> h_obj h' !! p = Some ob' -> own_storage ob -> own_storage ob'.
Proof.
  intros (c & Hv & Hg) E Ep Ep' Hown. unfold view in Hv. rewrite Ep in Hv. simpl in Hv. injection Hv as <-.
  simpl in E. unfold run_call, Hbind, Hret, get_obj in E. rewrite Ep in E. unfold good_call in Hg. apply Msat_none in Hg as ([ec c'] & w' & Ef & (_ & _ & _ & Hk & _)). rewrite Ef in E. injection E as <- <-. simpl in Ep'. rewrite lookup_insert in Ep'. injection Ep' as <-.
  destruct Hk as [_ _ K3]. unfold view_of in K3. simpl in K3. unfold own_storage. simpl. destruct (c_label c') as [a'|]; simpl; [right|by left].
  destruct (ob_label ob) as [b|] eqn:Eb; simpl in K3; [|by destruct K3]. destruct K3 as (_ & _ & ->). destruct Hown as [?|?]; congruence.
Qed.

Lemma step_own o h r h' p ob ob' : inv cfg h -> legal cfg h o -> step cfg o h = Ok (r, h') -> h_obj h !! p = Some ob -> h_obj h' !! p = Some ob' -> own_storage ob -> own_storage ob'.
Proof.
  intros Hi Hl E Ep Ep' Hown. destruct (step_kept _ _ _ _ Hi Hl E) as [Hi' K].
  assert (works_on o p \/ ~ works_on o p) as [Hw|Hw]. { destruct o as [| | | |? ? ?|[x|]| | | |f x]; simpl; auto; destruct (decide (p = x)); auto. }
  - destruct o as [| | | |? ? ?|[x|]| | | |f x]; simpl in Hw; try done; subst x.
    + exfalso. unfold step in E. destruct (Hsat_free_clustering cfg (Some p) h Hi Hl) as (a & h1 & E1 & _ & _ & _ & o' & _ & _ & Ed & _). unfold Hbind in E. rewrite E1 in E. injection E as <- <-. rewrite Ed, lookup_delete in Ep'. done.
    + by eapply run_own.
  - rewrite (k_obj _ _ _ K _ _ Ep Hw) in Ep'. congruence.
Qed.

Lemma claim_copy h p q r h' : reachable cfg h -> legal cfg h (OCopy (Some p) true) -> step cfg (OCopy (Some p) true) h = Ok (r, h') -> r = RNew ER_OK (Some (Some q)) ->
  h_obj h !! q = None /\ (exists ob, h_obj h' !! q = Some ob /\ own_storage ob) /\
  num_points h' q = num_points h p /\ num_clusters h' q = num_clusters h p /\ (num_clusters h p <> Some 0 -> shown h' q = shown h p) /\
  (forall x, is_Some (h_obj h !! x) -> h_obj h' !! x = h_obj h !! x /\ shown h' x = shown h x).
Proof.
  intros H Hl E ->. apply reachable_inv in H. destruct (step_kept _ _ _ _ H Hl E) as [Hi' K]. unfold step in E. destruct (Hsat_copy cfg (Some p) true h H Hl) as ([ec o] & h1 & E1 & Hp). unfold Hbind in E. rewrite E1 in E. cbn in E. injection E as -> -> <-. simpl in *.
  destruct Hp as [(_ & _ & [= ->] & q' & o & l & [= <-] & Eo & Hlab & Hc)|([] & _)]; [|done].
  set (q := w_next (h_w h)) in *. assert (h_obj h !! q = None) as Eq by (by apply (inv_fresh_obj cfg)). split; [done|].
  assert (forall x, is_Some (h_obj h !! x) -> h_obj h1 !! x = h_obj h !! x /\ shown h1 x = shown h x) as Hrest.
  { intros x [ob Ex]. assert (h_obj h1 !! x = Some ob) as Ex' by (apply (k_obj _ _ _ K); auto). rewrite Ex, Ex'. split; [done|]. unfold shown. rewrite Ex, Ex'. simpl. destruct (ob_label ob) as [b|] eqn:Eb; simpl; [|done].
    destruct (i_label _ _ H _ _ _ Ex Eb) as (l' & El & _). rewrite El, (k_arr _ _ _ K _ _ El); auto. }
  unfold copies in Hc. cbv zeta in Hc. fold q in Hc. destruct Hc as (_ & _ & Hd). unfold num_points, num_clusters. rewrite Eo. simpl. destruct (decide (0 < ob_k o)) as [Hk|Hk]; destruct Hd as (D1 & D2 & D3 & D4); pose proof (f_equal (fun m => m !! q) D4) as D5; cbv beta in D5; rewrite lookup_insert in D5; rewrite D5; simpl; splits; auto.
  - eexists. split; [done|]. by right.
  - intros _. unfold shown. rewrite Eo, D5. simpl. rewrite D3, lookup_insert. simpl.
    destruct (ob_label o) as [b|] eqn:Eb.
    + simpl. rewrite (Hlab _ eq_refl). simpl. by rewrite take_take, Nat.min_id.
    + exfalso. pose proof (i_init _ _ H _ _ Eo) as Hin. destruct o. apply init_true in Hin as (_ & _ & _ & _ & [?|?]); simpl in *; [lia|done].
  - eexists. split; [done|]. by left.
  - f_equal. lia.
  - intros Hn. exfalso. apply Hn. f_equal. lia.
Qed.

(** Whatever happens to other objects and arrays, an object that owns its labels
    stays as it is. *)
Lemma claim_untouched h os h' p ob : reachable cfg h -> steps cfg h os h' -> h_obj h !! p = Some ob -> own_storage ob -> Forall (fun o => ~ works_on o p) os ->
  h_obj h' !! p = Some ob /\ shown h' p = shown h p.
Proof.
  intros H Hs Ep Hown HF. apply reachable_inv in H. revert H Ep HF. induction Hs as [|h o r h1 os h2 Hl E Hs IH]; intros Hi Ep HF; [done|]. apply Forall_cons in HF as [Ho HF].
  destruct (frame_owner _ _ _ _ _ _ Hi Hl E Ep Hown Ho) as [E1 E2]. destruct (step_kept _ _ _ _ Hi Hl E) as [Hi' _]. destruct (IH Hi' E1 HF) as [E3 E4]. split; [done|congruence].
Qed.

(** Whatever is done with an object that owns its labels, the others stay as they
    are. *)
Lemma claim_others h os h' p ob q oq : reachable cfg h -> steps cfg h os h' -> h_obj h !! p = Some ob -> h_obj h !! q = Some oq -> p <> q -> own_storage oq ->
  Forall (fun o => ~ works_on o p /\ (forall b, ob_label ob = Some b -> ~ user_writes o b) /\ (forall x, works_on o x -> x = q)) os ->
  h_obj h' !! p = Some ob /\ shown h' p = shown h p.
Proof.
  intros H Hs Ep Eq Hne Hown HF. apply reachable_inv in H. assert (q < w_next (h_w h)) as Hlt by (by eapply inv_obj_lt).
  assert ((exists oq', h_obj h !! q = Some oq' /\ own_storage oq') \/ h_obj h !! q = None) as Hq by eauto. clear oq Eq Hown. revert H Ep HF Hq Hlt.
  induction Hs as [|h o r h1 os h2 Hl E Hs IH]; intros Hi Ep HF Hq Hlt; [done|]. apply Forall_cons in HF as [(Ho1 & Ho2 & Ho3) HF]. destruct (step_kept _ _ _ _ Hi Hl E) as [Hi' K].
  assert (h_obj h1 !! p = Some ob /\ shown h1 p = shown h p) as [E1 E2].
  { assert ((exists x, works_on o x) \/ forall x, ~ works_on o x) as [[x Hx]|Hx]. { destruct o as [| | | |? ? ?|[x|]| | | |f x]; simpl; eauto. }
    - pose proof (Ho3 _ Hx) as ->. destruct Hq as [(oq & Eq & Hown)|Eq]; [by eapply (frame_other h o r h1 p ob q oq)|].
      exfalso. destruct o as [| | | |? ? ?|[x|]| | | |f x]; simpl in Hx; try done; subst x; simpl in Hl; [rewrite Eq in Hl; by destruct Hl|]. destruct Hl as (c & Hv & _). unfold view in Hv. by rewrite Eq in Hv.
    - eapply frame; eauto. intros b Eb Ht. apply (Ho2 _ Eb). destruct o as [| | | |? ? [?|]|[x|]| | | |f x]; simpl in *; try done; exfalso; by eapply Hx. }
  destruct IH as [E3 E4]; auto.
  - destruct (h_obj h1 !! q) as [oq'|] eqn:Eq1; [|auto]. destruct Hq as [(oq & Eq & Hown)|Eq]; [left; exists oq'; split; [done|]; by eapply (step_own o h r h1 q oq oq')|].
    destruct (k_new _ _ _ K _ _ Eq1) as [[? ?]|?]; [congruence|lia].
  - pose proof (k_next _ _ _ K). lia.
  - split; [done|congruence].
Qed.

(** ** C43 *)

Lemma filled_spec len n ls l i : length ls = n -> len <= length l ->
  (i < len -> i < n -> filled cfg len n ls l !! i = ls !! i) /\ (n <= i -> i < len -> filled cfg len n ls l !! i = Some (Some (cl_na cfg))) /\ (len <= i -> filled cfg len n ls l !! i = l !! i).
Proof.
  intros Hls Hl. unfold filled. splits.
  - intros H1 H2. rewrite lookup_app_l by (rewrite take_length; lia). by rewrite lookup_take.
  - intros H1 H2. rewrite lookup_app_r by (rewrite take_length; lia). rewrite take_length. rewrite lookup_app_l by (rewrite replicate_length; lia). apply lookup_replicate_2. lia.
  - intros H1. rewrite lookup_app_r by (rewrite take_length; lia). rewrite take_length. rewrite lookup_app_r by (rewrite replicate_length; lia). rewrite replicate_length, lookup_drop. f_equal. lia.
Qed.

Lemma claim_labels h p len buf r h' : reachable cfg h -> legal cfg h (OLabels p len buf) -> step cfg (OLabels p len buf) h = Ok (r, h') ->
  (exists q b n ls l l', r = RErr ER_OK /\ p = Some q /\ buf = Some b /\ len <> 0 /\ num_clusters h q <> Some 0 /\ num_points h q = Some n /\ shown h q = Some ls /\ h_arr h !! b = Some l /\
     h_w h' = h_w h /\ h_obj h' = h_obj h /\ (forall b', b' <> b -> h_arr h' !! b' = h_arr h !! b') /\
     h_arr h' !! b = Some l' /\ length l' = length l /\
     (forall i, i < len -> i < n -> l' !! i = ls !! i) /\ (forall i, n <= i -> i < len -> l' !! i = Some (Some (cl_na cfg))) /\ (forall i, len <= i -> l' !! i = l !! i)) \/
  (r = RErr ER_INVALID_INPUT /\ (p = None \/ buf = None \/ len = 0 \/ exists q, p = Some q /\ num_clusters h q = Some 0) /\
     h_obj h' = h_obj h /\ h_arr h' = h_arr h /\ w_live (h_w h') ≡ₚ w_live (h_w h) /\ e_code (w_err (h_w h')) = ER_INVALID_INPUT).
Proof.
  intros H Hl E. apply reachable_inv in H. simpl in Hl. destruct Hl as [Hp Hb]. unfold step in E. destruct (Hsat_labels cfg p len buf h H Hp) as (ec & h1 & E1 & Hc). { intros b ->. done. }
  unfold Hbind in E. rewrite E1 in E. injection E as <- <-. destruct Hc as [(-> & Hlen & q & o & s & ls & b & l & -> & Eo & Hk & Es & Els & -> & Eb & ->)|(Hf & -> & Hc)].
  - left. destruct Hb as (l1 & [E2 _] & Hll). assert (l1 = l) as -> by congruence. destruct (i_label _ _ H _ _ _ Eo Es) as (ls' & F1 & F2 & _). assert (ls' = ls) as -> by congruence.
    exists q, b, (ob_n o), (take (ob_n o) ls), l, (filled cfg len (ob_n o) (take (ob_n o) ls) l). unfold num_clusters, num_points, shown. rewrite Eo. simpl. rewrite Es. simpl. rewrite Els. simpl. splits; auto; try congruence.
    + intros b' Hb'. by rewrite lookup_insert_ne.
    + by rewrite lookup_insert.
    + unfold filled. rewrite !app_length, !take_length, replicate_length, drop_length. lia.
    + intros i. apply filled_spec; [rewrite take_length; lia|done].
    + intros i. apply filled_spec; [rewrite take_length; lia|done].
    + intros i. apply filled_spec; [rewrite take_length; lia|done].
  - right. destruct Hf. splits; auto. destruct Hc as [?|[?|[?|(q & o & -> & Eo & Hk)]]]; auto. right. right. right. exists q. unfold num_clusters. rewrite Eo. simpl. split; [done|congruence].
Qed.

(** ** C44 *)

Lemma claim_existing h num k b deep r h' p l : reachable cfg h -> legal cfg h (OInitExisting num k (Some b) deep true) -> step cfg (OInitExisting num k (Some b) deep true) h = Ok (r, h') ->
  r = RNew ER_OK (Some (Some p)) -> user_arr h b l ->
  exists ob, h_obj h' !! p = Some ob /\ (deep = true -> own_storage ob) /\ (deep = false -> ob_label ob = Some b) /\ num_points h' p = Some (N.to_nat num) /\ num_clusters h' p = Some (N.to_nat k) /\ shown h' p = Some (take (N.to_nat num) l).
Proof.
  intros H Hl E -> [Eb _]. apply reachable_inv in H. simpl in Hl. destruct Hl as (l1 & [E1 _] & Hll). assert (l1 = l) as -> by congruence. unfold step in E.
  destruct (Hsat_init_existing cfg num k (Some b) deep true h l) as ([ec o] & h1 & E2 & Hc); [intros b' [= <-]; done|done|]. unfold Hbind in E. rewrite E2 in E. cbn in E. injection E as -> -> <-.
  cbv zeta in Hc. destruct Hc as [(_ & _ & [= ->] & _ & _ & Hd)|([] & _)]; [|done]. unfold num_points, num_clusters, shown.
  destruct deep; destruct Hd as (D1 & D2 & D3 & D4); rewrite D4, lookup_insert; simpl; rewrite D3; eexists; (split; [done|]); splits; try done; [by right| |].
  - rewrite lookup_insert. simpl. by rewrite take_take, Nat.min_id.
  - by rewrite Eb.
Qed.

(** What the calls that read the object return. *)
Lemma claim_info h p a b r h' : reachable cfg h -> is_Some (h_obj h !! p) -> step cfg (OInfo (Some p) a b) h = Ok (r, h') ->
  h' = h /\ r = RInfo ER_OK (if a then num_points h p else None) (if b then num_clusters h p else None).
Proof.
  intros H Hl E. apply reachable_inv in H. unfold step in E. destruct (Hsat_info cfg (Some p) a b h H Hl) as ([ec [n k]] & h1 & E1 & Hc). unfold Hbind in E. rewrite E1 in E. injection E as <- <-.
  destruct Hc as [(-> & -> & q & o & [= <-] & Eo & -> & ->)|(_ & _ & _ & _ & ?)]; [|done]. split; [done|]. unfold num_points, num_clusters. rewrite Eo. simpl. by destruct a, b.
Qed.

(** A user's write shows in every object on that array. *)
Lemma claim_shared_write h b i x r h' p ob ls : reachable cfg h -> legal cfg h (OUserSet b i x) -> step cfg (OUserSet b i x) h = Ok (r, h') ->
  h_obj h !! p = Some ob -> ob_label ob = Some b -> shown h p = Some ls -> shown h' p = Some (<[i := Some x]> ls).
Proof.
  intros H Hl E Eo Eb Es. apply reachable_inv in H. simpl in Hl. destruct Hl as (l & [El _] & Hi). simpl in E. unfold set_elem, Hbind, get_arr in E. rewrite El, decide_True in E by done. injection E as <- <-. unfold shown in *. simpl. rewrite Eo in *. simpl in *. rewrite Eb in *. simpl in *. rewrite El in Es. simpl in Es.
  rewrite lookup_insert. simpl. injection Es as <-. f_equal. destruct (decide (i < ob_n ob)).
  - by rewrite take_insert_lt.
  - rewrite take_insert by lia. rewrite list_insert_ge; [done|]. rewrite take_length. lia.
Qed.

(** ** C45 *)

Definition constructor (o : op) : Prop := match o with OInitEmpty _ _ _ | OInitExisting _ _ _ _ _ | OCopy _ _ => True | _ => False end.
Definition has_out (o : op) : bool := match o with OInitEmpty _ _ out | OInitExisting _ _ _ _ out | OCopy _ out => out | _ => false end.

Lemma claim_constructor h o r h' : reachable cfg h -> legal cfg h o -> constructor o -> step cfg o h = Ok (r, h') ->
  (exists p, r = RNew ER_OK (Some (Some p)) /\ h_obj h !! p = None /\ ptr_initialized cfg (Some p) h' = Ok (true, h') /\ w_err (h_w h') = w_err (h_w h)) \/
  (exists ec, r = RNew ec (if has_out o then Some None else None) /\ ec <> ER_OK /\ h_obj h' = h_obj h /\ h_arr h' = h_arr h /\ w_live (h_w h') ≡ₚ w_live (h_w h) /\ e_code (w_err (h_w h')) = ec).
Proof.
  intros H Hl Hc E. pose proof (reachable_step _ _ _ _ H Hl E) as H'. apply reachable_inv in H.
  assert (forall p, is_Some (h_obj h' !! p) -> ptr_initialized cfg (Some p) h' = Ok (true, h')) as Hini. { intros p Hp. by apply claim_storage. }
  destruct o as [num ext out|num k labels deep out|p out| | | | | | |]; simpl in Hc; try done; unfold step in E; cbn [has_out].
  - destruct (Hsat_init_empty cfg num ext out h) as ([ec o] & h1 & E1 & Hd). unfold Hbind in E. rewrite E1 in E. injection E as <- <-.
    destruct Hd as [(-> & -> & _ & -> & _ & _ & _ & He & _ & Ho)|(Hf & -> & _)]; [left|right].
    + eexists. split; [done|]. split; [by apply (inv_fresh_obj cfg)|]. split; [|done]. apply Hini. rewrite Ho, lookup_insert. eauto.
    + destruct Hf. exists ec. splits; auto.
  - simpl in Hl. destruct (Hsat_init_existing cfg num k labels deep out h (match labels with Some b => default [] (h_arr h !! b) | None => [] end)) as ([ec o] & h1 & E2 & Hd); [|done|].
    { intros b ->. destruct Hl as (l & [El _] & Hll). by rewrite El. }
    unfold Hbind in E. rewrite E2 in E. injection E as <- <-. cbv zeta in Hd.
    destruct Hd as [(-> & _ & -> & _ & He & Hd)|(Hf & -> & _)]; [left|right].
    + eexists. split; [done|]. split; [by apply (inv_fresh_obj cfg)|]. split; [|done]. apply Hini. destruct deep; destruct Hd as (_ & _ & _ & Ho); rewrite Ho, lookup_insert; eauto.
    + destruct Hf. exists ec. splits; auto.
  - destruct (Hsat_copy cfg p out h H Hl) as ([ec o] & h1 & E1 & Hd). unfold Hbind in E. rewrite E1 in E. injection E as <- <-.
    destruct Hd as [(-> & _ & -> & q & ob & l & _ & _ & _ & Hd)|(Hf & -> & _)]; [left|right].
    + unfold copies in Hd. cbv zeta in Hd. destruct Hd as (_ & He & Hd). eexists. split; [done|]. split; [by apply (inv_fresh_obj cfg)|]. split; [|done]. apply Hini. destruct (decide _); destruct Hd as (_ & _ & _ & Ho); rewrite Ho, lookup_insert; eauto.
    + destruct Hf. exists ec. splits; auto.
Qed.

(** When they succeed, and with what they fail. *)
Definition args_good (o : op) : Prop :=
  match o with
  | OInitEmpty num _ out => out = true /\ num <> 0%N /\ (num <= pi_max cfg)%N /\ (num < u64max)%N
  | OInitExisting num k labels _ out => out = true /\ num <> 0%N /\ (num <= pi_max cfg)%N /\ (num < u64max)%N /\ k <> 0%N /\ (k <= cl_max cfg)%N /\ (k <= u64max)%N /\ labels <> None
  | OCopy p out => out = true /\ p <> None
  | _ => False
  end.

Lemma claim_constructor_code h o r h' : reachable cfg h -> legal cfg h o -> constructor o -> step cfg o h = Ok (r, h') ->
  exists ec out, r = RNew ec out /\
    (args_good o -> ec = ER_OK \/ (ec = ER_NO_MEMORY /\ ~ no_fail (h_w h))) /\
    (~ args_good o -> ec = ER_INVALID_INPUT \/ ec = ER_TOO_LARGE_PROBLEM).
Proof.
  intros H Hl Hc E. apply reachable_inv in H. destruct o as [num ext out|num k labels deep out|p out| | | | | | |]; simpl in Hc; try done; unfold step in E; cbn [args_good].
  - destruct (Hsat_init_empty cfg num ext out h) as ([ec o] & h1 & E1 & Hd). unfold Hbind in E. rewrite E1 in E. injection E as <- <-. exists ec, o. split; [done|]. unfold size_ok, bad_args in Hd. tauto.
  - simpl in Hl. destruct (Hsat_init_existing cfg num k labels deep out h (match labels with Some b => default [] (h_arr h !! b) | None => [] end)) as ([ec o] & h1 & E2 & Hd); [|done|].
    { intros b ->. destruct Hl as (l & [El _] & Hll). by rewrite El. }
    unfold Hbind in E. rewrite E2 in E. injection E as <- <-. exists ec, o. split; [done|]. cbv zeta in Hd. unfold size_ok, bad_args in Hd. tauto.
  - destruct (Hsat_copy cfg p out h H Hl) as ([ec o] & h1 & E1 & Hd). unfold Hbind in E. rewrite E1 in E. injection E as <- <-. exists ec, o. split; [done|]. unfold bad_args in Hd.
    destruct Hd as [(-> & -> & _ & q & ob & l & -> & _)|Hd]; [|tauto]. split; [auto|]. intros Hn. exfalso. apply Hn. done.
Qed.
End Claims.
