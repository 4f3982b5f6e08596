(** Every history of calls on clustering objects is safe. *)

From Coq Require Import Strings.String.
From stdpp Require Import prelude list gmap.
From Coq Require Import NArith ZArith.
From Verif Require Import Base World Options Mem DigraphRep DigraphDiff BatchProof Obj ObjRun.
Open Scope list_scope. Open Scope nat_scope.

(** ** Computations on the heap *)

Definition Hsat {A} (m : H A) (h : heap) (Q : A -> heap -> Prop) : Prop := exists a h', m h = Ok (a, h') /\ Q a h'.

Lemma Hsat_ret {A} (a : A) h (Q : A -> heap -> Prop) : Q a h -> Hsat (Hret a) h Q.
Proof. unfold Hsat, Hret. eauto. Qed.
Lemma Hsat_bind {A B} (m : H A) (k : A -> H B) h Q : Hsat m h (fun a h' => Hsat (k a) h' Q) -> Hsat (Hbind m k) h Q.
Proof. intros (a & h1 & E & b & h2 & E2 & HQ). exists b, h2. unfold Hbind. by rewrite E. Qed.
Lemma Hsat_mono {A} (m : H A) h (P Q : A -> heap -> Prop) : Hsat m h P -> (forall a h', P a h' -> Q a h') -> Hsat m h Q.
Proof. intros (a & h1 & E & HP) HQ. exists a, h1. auto. Qed.

Definition with_world (h : heap) (w : world) : heap := Heap w (h_arr h) (h_obj h).

Lemma Hsat_make_error ec msg f l h (Q : ecode -> heap -> Prop) : Q ec (with_world h (World (w_fail (h_w h)) (w_next (h_w h)) (w_live (h_w h)) (ErrSt ec msg f l) (w_tick (h_w h)) (w_most (h_w h)))) ->
  Hsat (on_world (make_error__ ec msg f l)) h Q.
Proof. intros HQ. unfold Hsat, on_world, make_error__, set_err, Mbind, Mret. simpl. eauto. Qed.

Lemma Hsat_malloc n h (Q : option nat -> heap -> Prop) :
  Q None (with_world h (World (w_fail (h_w h)) (S (w_next (h_w h))) (w_live (h_w h)) (w_err (h_w h)) (w_tick (h_w h)) (Nat.max (w_most (h_w h)) n))) ->
  Q (Some (w_next (h_w h))) (with_world h (World (w_fail (h_w h)) (S (w_next (h_w h))) (w_next (h_w h) :: w_live (h_w h)) (w_err (h_w h)) (w_tick (h_w h)) (Nat.max (w_most (h_w h)) n))) ->
  Hsat (on_world (malloc n)) h Q.
Proof. intros H1 H2. unfold Hsat, on_world, malloc. destruct (w_fail _ _); eauto. Qed.

Lemma Hsat_free h b (Q : unit -> heap -> Prop) : b ∈ w_live (h_w h) ->
  Q tt (with_world h (World (w_fail (h_w h)) (w_next (h_w h)) (remove_blk b (w_live (h_w h))) (w_err (h_w h)) (w_tick (h_w h)) (w_most (h_w h)))) -> Hsat (on_world (free (Some b))) h Q.
Proof. intros H1 H2. unfold Hsat, on_world, free. rewrite decide_True by done. eauto. Qed.

Lemma Hsat_get_obj h p o (Q : obj -> heap -> Prop) : h_obj h !! p = Some o -> Q o h -> Hsat (get_obj p) h Q.
Proof. intros E HQ. unfold Hsat, get_obj. rewrite E. eauto. Qed.
Lemma Hsat_get_arr h p o (Q : _ -> heap -> Prop) : h_arr h !! p = Some o -> Q o h -> Hsat (get_arr p) h Q.
Proof. intros E HQ. unfold Hsat, get_arr. rewrite E. eauto. Qed.
Lemma Hsat_put_obj h p o (Q : _ -> heap -> Prop) : Q tt (Heap (h_w h) (h_arr h) (<[p := o]> (h_obj h))) -> Hsat (put_obj p o) h Q.
Proof. intros HQ. unfold Hsat, put_obj. eauto. Qed.
Lemma Hsat_put_arr h p o (Q : _ -> heap -> Prop) : Q tt (Heap (h_w h) (<[p := o]> (h_arr h)) (h_obj h)) -> Hsat (put_arr p o) h Q.
Proof. intros HQ. unfold Hsat, put_arr. eauto. Qed.

Lemma concat_perm {A B} (f : A -> list B) l l' : l ≡ₚ l' -> concat (f <$> l) ≡ₚ concat (f <$> l').
Proof. induction 1; simpl; [done|by f_equiv| |by etrans]. rewrite !app_assoc. f_equiv. apply Permutation_app_comm. Qed.

Lemma remove_perm b l : b ∈ l -> l ≡ₚ b :: remove_blk b l.
Proof. intros Hb. apply cnt_perm. intros x. simpl. rewrite cnt_remove. apply cnt_elem in Hb. destruct (decide (b = x)) as [->|]; lia. Qed.

Definition all_blocks (m : gmap nat obj) : list nat := concat (obj_blocks <$> map_to_list m).

Lemma all_blocks_new m p o : m !! p = None -> all_blocks (<[p := o]> m) ≡ₚ obj_blocks (p, o) ++ all_blocks m.
Proof. intros E. unfold all_blocks. rewrite (concat_perm _ _ _ (map_to_list_insert _ _ _ E)). done. Qed.
Lemma all_blocks_del m p o : m !! p = Some o -> all_blocks m ≡ₚ obj_blocks (p, o) ++ all_blocks (delete p m).
Proof. intros E. unfold all_blocks. rewrite <- (concat_perm _ _ _ (map_to_list_delete _ _ _ E)). done. Qed.
Lemma all_blocks_upd m p o o' : m !! p = Some o -> all_blocks (<[p := o']> m) ≡ₚ obj_blocks (p, o') ++ all_blocks (delete p m).
Proof. intros E. rewrite <- (insert_delete_insert m). apply all_blocks_new. by rewrite lookup_delete. Qed.
Lemma all_blocks_elem m b : b ∈ all_blocks m <-> exists p o, m !! p = Some o /\ (b = p \/ b ∈ owned o).
Proof.
  unfold all_blocks. rewrite elem_of_concat. split.
  - intros (l & Hb & Hl). apply elem_of_list_fmap in Hl as ([p o] & -> & Hp). apply elem_of_map_to_list in Hp. exists p, o. split; [done|]. by apply elem_of_cons in Hb.
  - intros (p & o & E & Hb). exists (obj_blocks (p, o)). split; [by apply elem_of_cons|]. apply elem_of_list_fmap. exists (p, o). split; [done|]. by apply elem_of_map_to_list.
Qed.

Section Proof.
Context (cfg : config).
Notation inv := (inv cfg).

(** Arrays and objects that a step may change. *)
Definition touches (h : heap) (o : op) (b : nat) : Prop :=
  match o with
  | OLabels _ _ (Some b') | OUserSet b' _ _ | OUserDrop b' => b = b'
  | ORun _ p => exists ob, h_obj h !! p = Some ob /\ ob_label ob = Some b
  | OFree (Some p) => exists ob, h_obj h !! p = Some ob /\ b ∈ owned ob
  | _ => False
  end.
Definition target (o : op) (p : nat) : Prop :=
  match o with OFree (Some q) | ORun _ q => p = q | _ => False end.

Record kept (h : heap) (o : op) (h' : heap) : Prop := {
  k_arr : forall b l, h_arr h !! b = Some l -> ~ touches h o b -> h_arr h' !! b = Some l;
  k_obj : forall p ob, h_obj h !! p = Some ob -> ~ target o p -> h_obj h' !! p = Some ob;
  k_next : w_next (h_w h) <= w_next (h_w h');
  k_live : forall b, b ∈ w_live (h_w h') -> b ∈ w_live (h_w h) \/ w_next (h_w h) <= b;
  k_new : forall p ob, h_obj h' !! p = Some ob -> is_Some (h_obj h !! p) \/ w_next (h_w h) <= p;
  k_user : forall b l, user_arr h b l -> o <> OUserDrop b -> exists l', h_arr h' !! b = Some l' /\ length l' = length l
}.

(** ** Facts from the invariant *)

Lemma inv_obj h p o : inv h -> h_obj h !! p = Some o -> p ∈ w_live (h_w h).
Proof. intros Hi E. rewrite (i_live _ _ Hi). apply all_blocks_elem. eauto. Qed.
Lemma inv_owned h p o b : inv h -> h_obj h !! p = Some o -> b ∈ owned o -> b ∈ w_live (h_w h).
Proof. intros Hi E Hb. rewrite (i_live _ _ Hi). apply all_blocks_elem. eauto. Qed.
Lemma inv_live_lt h b : inv h -> b ∈ w_live (h_w h) -> b < w_next (h_w h).
Proof. intros Hi Hb. destruct (i_tidy _ _ Hi) as [_ HF]. rewrite Forall_forall in HF. auto. Qed.
Lemma inv_obj_lt h p o : inv h -> h_obj h !! p = Some o -> p < w_next (h_w h).
Proof. intros Hi E. eapply inv_live_lt; [done|by eapply inv_obj]. Qed.
Lemma inv_fresh_obj h p : inv h -> w_next (h_w h) <= p -> h_obj h !! p = None.
Proof. intros Hi Hp. destruct (h_obj h !! p) eqn:E; [|done]. apply inv_obj_lt in E; [lia|done]. Qed.
Lemma inv_fresh_arr h p : inv h -> w_next (h_w h) <= p -> h_arr h !! p = None.
Proof. intros Hi Hp. destruct (h_arr h !! p) eqn:E; [|done]. apply (i_arr _ _ Hi) in E. lia. Qed.
(** A block belongs to one object only. *)
Lemma inv_owner h p q o o' b : inv h -> h_obj h !! p = Some o -> h_obj h !! q = Some o' -> p <> q -> b ∈ owned o -> b ∈ owned o' -> False.
Proof.
  intros Hi E E' Hne Hb Hb'. destruct (i_tidy _ _ Hi) as [HN _]. rewrite (i_live _ _ Hi) in HN. change (NoDup (all_blocks (h_obj h))) in HN.
  rewrite (all_blocks_del _ _ _ E) in HN. apply NoDup_app in HN as (_ & HN & _). apply (HN b); [by right|]. apply all_blocks_elem. exists q, o'. rewrite lookup_delete_ne by done. auto.
Qed.

(** ** Steps that keep the invariant *)

Lemma inv_world h w : inv h -> w_live w ≡ₚ w_live (h_w h) -> w_next (h_w h) <= w_next w -> inv (with_world h w).
Proof.
  intros [H1 [H2 H2'] H3 H4 H5 H6] El En. constructor; simpl; auto.
  - by rewrite El.
  - split; rewrite El; auto. eapply Forall_impl; [done|]. simpl. lia.
  - intros b l E. apply H3 in E. lia.
  - intros p o b E Eb. destruct (H6 _ _ _ E Eb) as (l & F1 & F2 & F3 & F4). exists l. splits; auto. rewrite El. auto.
Qed.

Lemma inv_new h w o : inv h -> w_live w = w_next (h_w h) :: w_live (h_w h) -> w_next (h_w h) < w_next w ->
  obj_initialized cfg o = true -> owned o = [] ->
  (forall b, ob_label o = Some b -> exists l, h_arr h !! b = Some l /\ ob_n o <= length l /\ (ob_ext o = false -> length l = ob_n o) /\ (ob_ext o = true -> b ∉ w_live (h_w h))) ->
  inv (Heap w (h_arr h) (<[w_next (h_w h) := o]> (h_obj h))).
Proof.
  intros Hi El En Ho Hown Hlab. set (p := w_next (h_w h)) in *. assert (h_obj h !! p = None) as Ep by (by apply inv_fresh_obj). assert (h_arr h !! p = None) as Ea by (by apply inv_fresh_arr).
  destruct (i_tidy _ _ Hi) as [HN HF]. constructor; simpl.
  - change (w_live w ≡ₚ all_blocks (<[p:=o]> (h_obj h))). rewrite El, all_blocks_new by done. unfold obj_blocks. simpl. rewrite Hown. simpl. f_equiv. apply Hi.
  - split; rewrite El; constructor; auto; [|eapply Forall_impl; [done|]; simpl; intros; unfold p in *; lia].
    intros Hin. apply inv_live_lt in Hin; [|done]. unfold p in *. lia.
  - intros b l E. apply (i_arr _ _ Hi) in E. unfold p in *. lia.
  - intros q o' E. apply lookup_insert_Some in E as [[<- <-]|[? E]]; [done|]. by eapply i_init.
  - intros q o' E. apply lookup_insert_Some in E as [[<- <-]|[? E]]; [done|]. by eapply i_noarr.
  - intros q o' b E Eb. apply lookup_insert_Some in E as [[<- <-]|[? E]].
    + destruct (Hlab _ Eb) as (l & H1 & H2 & H3 & H4). exists l. splits; auto. intros Hx. rewrite El. rewrite not_elem_of_cons. split; [|by apply H4]. intros ->. congruence.
    + destruct (i_label _ _ Hi _ _ _ E Eb) as (l & H1 & H2 & H3 & H4). exists l. splits; auto. intros Hx. rewrite El. rewrite not_elem_of_cons. split; [|by apply H4]. intros ->. congruence.
Qed.

Lemma inv_new_owned h w o b l : inv h -> b = S (w_next (h_w h)) -> w_live w = b :: w_next (h_w h) :: w_live (h_w h) -> b < w_next w ->
  obj_initialized cfg o = true -> ob_label o = Some b -> ob_ext o = false -> length l = ob_n o ->
  inv (Heap w (<[b := l]> (h_arr h)) (<[w_next (h_w h) := o]> (h_obj h))).
Proof.
  intros Hi Eb El En Ho Hlab Hext Hlen. set (p := w_next (h_w h)) in *. assert (h_obj h !! p = None) as Ep by (by apply inv_fresh_obj). assert (h_arr h !! p = None) as Ea by (by apply inv_fresh_arr).
  assert (h_obj h !! b = None) as Ep' by (apply inv_fresh_obj; [done|unfold p in *; lia]). assert (h_arr h !! b = None) as Ea' by (apply inv_fresh_arr; [done|unfold p in *; lia]).
  destruct (i_tidy _ _ Hi) as [HN HF].
  assert (p ∉ w_live (h_w h)) as Hp. { intros Hin. apply inv_live_lt in Hin; [|done]. unfold p in *. lia. }
  assert (b ∉ w_live (h_w h)) as Hb. { intros Hin. apply inv_live_lt in Hin; [|done]. unfold p in *. lia. }
  constructor; simpl.
  - change (w_live w ≡ₚ all_blocks (<[p:=o]> (h_obj h))). rewrite El, all_blocks_new by done. unfold obj_blocks, owned. simpl. rewrite Hext, Hlab. simpl. rewrite (perm_swap p b). do 2 f_equiv. apply Hi.
  - split; rewrite El.
    + constructor; [|by constructor]. rewrite not_elem_of_cons. split; [unfold p in *; lia|done].
    + constructor; [lia|]. constructor; [lia|]. eapply Forall_impl; [done|]. simpl. intros. unfold p in *. lia.
  - intros b' l' E. apply lookup_insert_Some in E as [[<- <-]|[? E]]; [done|]. apply (i_arr _ _ Hi) in E. unfold p in *. lia.
  - intros q o' E. apply lookup_insert_Some in E as [[<- <-]|[? E]]; [done|]. by eapply i_init.
  - intros q o' E. rewrite lookup_insert_ne. 2: { intros ->. apply lookup_insert_Some in E as [[? _]|[? E]]; [lia|]. congruence. }
    apply lookup_insert_Some in E as [[<- <-]|[? E]]; [done|]. by eapply i_noarr.
  - intros q o' b' E Eb'. apply lookup_insert_Some in E as [[<- <-]|[? E]].
    + assert (b' = b) as -> by congruence. exists l. rewrite lookup_insert. splits; auto; [lia|congruence].
    + destruct (i_label _ _ Hi _ _ _ E Eb') as (l' & H1 & H2 & H3 & H4). exists l'. rewrite lookup_insert_ne by (intros ->; congruence). splits; auto. intros Hx. rewrite El. rewrite !not_elem_of_cons.
      split; [intros ->; congruence|]. split; [intros ->; congruence|auto].
Qed.

Lemma init_true v n k lab ext : obj_initialized cfg (Obj v n k lab ext) = true <->
  v = clustering_version /\ n <> 0 /\ (N.of_nat n <= pi_max cfg)%N /\ (N.of_nat k <= cl_max cfg)%N /\ (k = 0 \/ lab <> None).
Proof.
  unfold obj_initialized. cbn [ob_version ob_n ob_k ob_label].
  destruct (decide (v <> clustering_version)) as [Hv|Hv]; [split; [done|intros (? & _); done]|].
  assert (v = clustering_version) as Ev by (destruct (decide (v = clustering_version)); done).
  destruct (decide (n = 0)) as [Hn|Hn]; [split; [done|intros (_ & ? & _); done]|].
  destruct (N.ltb_spec (pi_max cfg) (N.of_nat n)); [split; [done|intros (_ & _ & ? & _); lia]|].
  destruct (N.ltb_spec (cl_max cfg) (N.of_nat k)); [split; [done|intros (_ & _ & _ & ? & _); lia]|].
  destruct (decide (0 < k /\ lab = None)) as [[Hk ->]|Hk].
  - split; [done|]. intros (_ & _ & _ & _ & [?|?]); [lia|done].
  - split; [|done]. intros _. splits; auto. destruct (decide (k = 0)); [by left|right]. intros ->. apply Hk. split; [lia|done].
Qed.

(** ** The calls *)

Record failed (h : heap) (ec : ecode) (h' : heap) : Prop := {
  fl_code : ec <> ER_OK;
  fl_arr : h_arr h' = h_arr h;
  fl_obj : h_obj h' = h_obj h;
  fl_live : w_live (h_w h') ≡ₚ w_live (h_w h);
  fl_wle : wle (h_w h) (h_w h');
  fl_err : e_code (w_err (h_w h')) = ec
}.

Definition size_ok (num : N) : Prop := num <> 0%N /\ (num <= pi_max cfg)%N /\ (num < u64max)%N.
Definition null_out (out : bool) : outp := if out then Some None else None.

Definition bad_args (ec : ecode) : Prop := ec = ER_INVALID_INPUT \/ ec = ER_TOO_LARGE_PROBLEM.

Lemma remove_head b l : remove_blk b (b :: l) = l.
Proof. simpl. by rewrite decide_True. Qed.

Ltac wok := splits; auto; simpl; try done; try lia; try (split; simpl; [congruence|lia]).

Ltac fail_now := apply Hsat_bind, Hsat_make_error, Hsat_ret; right; splits; [constructor; simpl; auto; split; simpl; auto; try lia|done|unfold bad_args].

Lemma Hsat_init_empty num ext out h :
  Hsat (init_empty_clustering cfg num ext out) h (fun '(ec, r) h' =>
    (ec = ER_OK /\ out = true /\ size_ok num /\ r = Some (Some (w_next (h_w h))) /\ w_live (h_w h') = w_next (h_w h) :: w_live (h_w h) /\ wle (h_w h) (h_w h') /\ w_next (h_w h) < w_next (h_w h') /\ w_err (h_w h') = w_err (h_w h) /\
       h_arr h' = h_arr h /\ h_obj h' = <[w_next (h_w h) := Obj clustering_version (N.to_nat num) 0 ext (bool_decide (is_Some ext))]> (h_obj h)) \/
    (failed h ec h' /\ r = null_out out /\
       ((ec = ER_NO_MEMORY /\ out = true /\ size_ok num /\ ~ no_fail (h_w h)) \/ (bad_args ec /\ ~ (out = true /\ size_ok num))))).
Proof.
  unfold init_empty_clustering. destruct out; cbn [negb].
  2: { fail_now. right. split; [auto|]. by intros [? _]. }
  destruct (N.eqb_spec num 0). { fail_now. right. split; [auto|]. intros (_ & ? & _). done. }
  destruct (N.ltb_spec (pi_max cfg) num). { fail_now. right. split; [auto|]. intros (_ & _ & ? & _). lia. }
  destruct (N.ltb_spec (u64max - 1) num). { fail_now. right. split; [auto|]. intros (_ & _ & _ & ?). unfold u64max in *. lia. }
  assert (size_ok num) as Hs. { unfold size_ok. splits; auto. unfold u64max in *. lia. }
  apply Hsat_bind. unfold new_obj. apply Hsat_bind. unfold Hsat at 1, on_world, malloc. destruct (w_fail (h_w h) (w_next (h_w h))) eqn:Ef.
  - eexists _, _. split; [done|]. apply Hsat_ret. fail_now. left. splits; auto. intros Hn. specialize (Hn (w_next (h_w h))). rewrite Hn in Ef; [done|lia].
  - eexists _, _. split; [done|]. apply Hsat_bind, Hsat_put_obj, Hsat_ret, Hsat_ret. left. wok.
Qed.

Lemma Hsat_init_existing num k labels deep out h l : (forall b, labels = Some b -> h_arr h !! b = Some l /\ (num <= N.of_nat (length l))%N) ->
  inv h ->
  Hsat (init_existing_clustering cfg num k labels deep out) h (fun '(ec, r) h' =>
    let valid := out = true /\ size_ok num /\ k <> 0%N /\ (k <= cl_max cfg)%N /\ (k <= u64max)%N /\ labels <> None in
    (ec = ER_OK /\ valid /\ r = Some (Some (w_next (h_w h))) /\ wle (h_w h) (h_w h') /\ w_err (h_w h') = w_err (h_w h) /\
       (if deep then
          let b := S (w_next (h_w h)) in
          w_live (h_w h') = b :: w_next (h_w h) :: w_live (h_w h) /\ b < w_next (h_w h') /\ h_arr h' = <[b := take (N.to_nat num) l]> (h_arr h) /\
          h_obj h' = <[w_next (h_w h) := Obj clustering_version (N.to_nat num) (N.to_nat k) (Some b) false]> (h_obj h)
        else
          w_live (h_w h') = w_next (h_w h) :: w_live (h_w h) /\ w_next (h_w h) < w_next (h_w h') /\ h_arr h' = h_arr h /\
          h_obj h' = <[w_next (h_w h) := Obj clustering_version (N.to_nat num) (N.to_nat k) labels true]> (h_obj h))) \/
    (failed h ec h' /\ r = null_out out /\ ((ec = ER_NO_MEMORY /\ valid /\ ~ no_fail (h_w h)) \/ (bad_args ec /\ ~ valid)))).
Proof.
  intros Hl Hi. unfold init_existing_clustering. cbv zeta. destruct out; cbn [negb].
  2: { fail_now. right. split; [auto|]. by intros [? _]. }
  destruct (N.eqb_spec num 0). { fail_now. right. split; [auto|]. intros (_ & (? & _) & _). done. }
  destruct (N.ltb_spec (pi_max cfg) num). { fail_now. right. split; [auto|]. intros (_ & (_ & ? & _) & _). lia. }
  destruct (N.ltb_spec (u64max - 1) num). { fail_now. right. split; [auto|]. intros (_ & (_ & _ & ?) & _). unfold u64max in *. lia. }
  assert (size_ok num) as Hs. { unfold size_ok. splits; auto. unfold u64max in *. lia. }
  destruct (N.eqb_spec k 0). { fail_now. right. split; [auto|]. intros (_ & _ & ? & _). done. }
  destruct (N.ltb_spec (cl_max cfg) k). { fail_now. right. split; [auto|]. intros (_ & _ & _ & ? & _). lia. }
  destruct (N.ltb_spec u64max k). { fail_now. right. split; [auto|]. intros (_ & _ & _ & _ & ? & _). lia. }
  destruct labels as [b|]; [rewrite decide_False by done|rewrite decide_True by done]. 2: { fail_now. right. split; [auto|]. intros (_ & _ & _ & _ & _ & ?). done. }
  destruct (Hl b eq_refl) as [Eb Hb].
  apply Hsat_bind. unfold new_obj. apply Hsat_bind. unfold Hsat at 1, on_world at 1, malloc at 1. destruct (w_fail (h_w h) (w_next (h_w h))) eqn:Ef.
  { eexists _, _. split; [done|]. apply Hsat_ret. fail_now. left. splits; auto; try done. intros Hn. specialize (Hn (w_next (h_w h))). rewrite Hn in Ef; [done|lia]. }
  eexists _, _. split; [done|]. apply Hsat_bind, Hsat_put_obj, Hsat_ret. destruct deep.
  2: { apply Hsat_bind, Hsat_put_obj, Hsat_ret. left. wok. by rewrite insert_insert. }
  apply Hsat_bind. unfold new_labels. apply Hsat_bind. unfold Hsat at 1, on_world at 1, malloc at 1. simpl. destruct (w_fail (h_w h) (S (w_next (h_w h)))) eqn:Ef2.
  - eexists _, _. split; [done|]. apply Hsat_ret. apply Hsat_bind. unfold free_obj. apply Hsat_bind, Hsat_free; [simpl; by left|]. simpl. unfold Hsat at 1. eexists _, _. split; [done|]. simpl.
    apply Hsat_bind, Hsat_make_error, Hsat_ret. right. splits; [|done|].
    + constructor; simpl; auto; [|by rewrite decide_True|split; simpl; auto; lia]. rewrite delete_insert; [done|]. by apply (inv_fresh_obj h).
    + left. splits; auto; try done. intros Hn. specialize (Hn (S (w_next (h_w h)))). rewrite Hn in Ef2; [done|lia].
  - eexists _, _. split; [done|]. apply Hsat_bind. eapply Hsat_get_arr; [done|]. rewrite decide_False by lia. apply Hsat_bind, Hsat_put_arr, Hsat_ret, Hsat_bind, Hsat_put_obj, Hsat_ret. simpl.
    left. wok. by rewrite insert_insert.
Qed.

(** scc_copy_clustering. *)
Definition copies (h : heap) (o : obj) (l : list (option Z)) (h' : heap) : Prop :=
  let p := w_next (h_w h) in let b := S p in
  wle (h_w h) (h_w h') /\ w_err (h_w h') = w_err (h_w h) /\
  (if decide (0 < ob_k o) then
     w_live (h_w h') = b :: p :: w_live (h_w h) /\ b < w_next (h_w h') /\ h_arr h' = <[b := take (ob_n o) l]> (h_arr h) /\
     h_obj h' = <[p := Obj clustering_version (ob_n o) (ob_k o) (Some b) false]> (h_obj h)
   else
     w_live (h_w h') = p :: w_live (h_w h) /\ p < w_next (h_w h') /\ h_arr h' = h_arr h /\
     h_obj h' = <[p := Obj clustering_version (ob_n o) 0 None false]> (h_obj h)).

Lemma Hsat_copy p out h : inv h -> handle h p ->
  Hsat (copy_clustering cfg p out) h (fun '(ec, r) h' =>
    (ec = ER_OK /\ out = true /\ r = Some (Some (w_next (h_w h))) /\ exists q o l, p = Some q /\ h_obj h !! q = Some o /\ (forall b, ob_label o = Some b -> h_arr h !! b = Some l) /\ copies h o l h') \/
    (failed h ec h' /\ r = null_out out /\ ((ec = ER_NO_MEMORY /\ out = true /\ p <> None /\ ~ no_fail (h_w h)) \/ (bad_args ec /\ ~ (out = true /\ p <> None))))).
Proof.
  intros Hi Hp. unfold copy_clustering. destruct out; cbn [negb].
  2: { fail_now. right. split; [auto|]. by intros [? _]. }
  destruct p as [q|]; simpl in Hp.
  2: { apply Hsat_bind, Hsat_ret. cbn [negb]. fail_now. right. split; [auto|]. by intros [_ ?]. }
  destruct Hp as [o Eo]. apply Hsat_bind. unfold ptr_initialized. apply Hsat_bind. eapply Hsat_get_obj; [done|]. apply Hsat_ret. rewrite (i_init _ _ Hi _ _ Eo). cbn [negb].
  apply Hsat_bind. eapply Hsat_get_obj; [done|].
  apply Hsat_bind. unfold new_obj. apply Hsat_bind. unfold Hsat at 1, on_world at 1, malloc at 1. destruct (w_fail (h_w h) (w_next (h_w h))) eqn:Ef.
  { eexists _, _. split; [done|]. apply Hsat_ret. fail_now. left. splits; auto; try done. intros Hn. specialize (Hn (w_next (h_w h))). rewrite Hn in Ef; [done|lia]. }
  eexists _, _. split; [done|]. apply Hsat_bind, Hsat_put_obj, Hsat_ret. destruct (decide (0 < ob_k o)) as [Hk|Hk].
  2: { apply Hsat_ret. left. splits; auto. exists q, o, (match ob_label o with Some b => default [] (h_arr h !! b) | None => [] end). splits; auto.
    - intros b Eb. rewrite Eb. destruct (i_label _ _ Hi _ _ _ Eo Eb) as (l & -> & _). done.
    - unfold copies. cbv zeta. simpl. splits; auto; [split; simpl; auto|]. rewrite decide_False by done. splits; auto. assert (ob_k o = 0) as -> by lia. done. }
  assert (exists b, ob_label o = Some b) as [b Eb].
  { destruct o as [v n k lab ext]. pose proof (i_init _ _ Hi _ _ Eo) as Hin. apply init_true in Hin as (_ & _ & _ & _ & [?|?]); simpl in *; [lia|]. destruct lab; [eauto|done]. }
  destruct (i_label _ _ Hi _ _ _ Eo Eb) as (l & El & Hlen & _).
  apply Hsat_bind. unfold new_labels. rewrite Eb. apply Hsat_bind. unfold Hsat at 1, on_world at 1, malloc at 1. simpl. destruct (w_fail (h_w h) (S (w_next (h_w h)))) eqn:Ef2.
  - eexists _, _. split; [done|]. apply Hsat_ret. apply Hsat_bind. unfold free_obj. apply Hsat_bind, Hsat_free; [simpl; by left|]. simpl. unfold Hsat at 1. eexists _, _. split; [done|]. simpl.
    apply Hsat_bind, Hsat_make_error, Hsat_ret. right. splits; [|done|].
    + constructor; simpl; auto; [|by rewrite decide_True|split; simpl; auto; lia]. rewrite delete_insert; [done|]. by apply (inv_fresh_obj h).
    + left. splits; auto; try done. intros Hn. specialize (Hn (S (w_next (h_w h)))). rewrite Hn in Ef2; [done|lia].
  - eexists _, _. split; [done|]. apply Hsat_bind. eapply Hsat_get_arr; [done|]. rewrite decide_False by lia. apply Hsat_bind, Hsat_put_arr, Hsat_ret, Hsat_bind, Hsat_put_obj, Hsat_ret. simpl.
    left. splits; auto. exists q, o, l. splits; auto; [intros b' Eb'; congruence|]. unfold copies. cbv zeta. simpl. splits; auto; [split; simpl; auto; lia|]. rewrite decide_True by done. splits; auto. by rewrite insert_insert.
Qed.

(** scc_free_clustering. *)
Lemma Hsat_free_clustering p h : inv h -> handle h p ->
  Hsat (free_clustering p) h (fun _ h' => wle (h_w h) (h_w h') /\ w_next (h_w h') = w_next (h_w h) /\ w_err (h_w h') = w_err (h_w h) /\
    match p with
    | None => h' = h
    | Some q => exists o, h_obj h !! q = Some o /\ w_live (h_w h) ≡ₚ obj_blocks (q, o) ++ w_live (h_w h') /\ h_obj h' = delete q (h_obj h) /\
        h_arr h' = match owned o with b :: _ => delete b (h_arr h) | [] => h_arr h end
    end).
Proof.
  intros Hi Hp. unfold free_clustering. destruct p as [q|]; simpl in Hp; [|by apply Hsat_ret]. destruct Hp as [o Eo].
  apply Hsat_bind. eapply Hsat_get_obj; [done|]. pose proof (inv_obj _ _ _ Hi Eo) as Hq. apply Hsat_bind.
  assert (forall h1, w_fail (h_w h1) = w_fail (h_w h) -> w_next (h_w h1) = w_next (h_w h) -> w_err (h_w h1) = w_err (h_w h) -> h_obj h1 = h_obj h ->
    h_arr h1 = match owned o with b :: _ => delete b (h_arr h) | [] => h_arr h end -> w_live (h_w h) ≡ₚ owned o ++ w_live (h_w h1) -> q ∈ w_live (h_w h1) ->
    Hsat (free_obj q) h1 (fun _ h' => wle (h_w h) (h_w h') /\ w_next (h_w h') = w_next (h_w h) /\ w_err (h_w h') = w_err (h_w h) /\
      exists o, h_obj h !! q = Some o /\ w_live (h_w h) ≡ₚ obj_blocks (q, o) ++ w_live (h_w h') /\ h_obj h' = delete q (h_obj h) /\
        h_arr h' = match owned o with b :: _ => delete b (h_arr h) | [] => h_arr h end)) as Hfin.
  { intros h1 F1 F2 F3 F4 F5 F6 F7. unfold free_obj. apply Hsat_bind, Hsat_free; [done|]. unfold Hsat. eexists _, _. split; [done|]. simpl. splits; auto; [split; simpl; [congruence|lia]|].
    exists o. splits; auto; [|by rewrite F4]. unfold obj_blocks. simpl. rewrite F6. rewrite (remove_perm _ _ F7) at 1. symmetry. apply Permutation_middle. }
  destruct (ob_ext o) eqn:Ex.
  - apply Hsat_ret. apply Hfin; auto; unfold owned; by rewrite Ex.
  - unfold free_labels. destruct (ob_label o) as [b|] eqn:Eb.
    + assert (owned o = [b]) as Ew by (unfold owned; by rewrite Ex, Eb). assert (b ∈ w_live (h_w h)) as Hb. { eapply inv_owned; [done..|]. rewrite Ew. by left. }
      assert (q <> b) as Hne. { intros ->. destruct (i_label _ _ Hi _ _ _ Eo Eb) as (l & El & _). by rewrite (i_noarr _ _ Hi _ _ Eo) in El. }
      apply Hsat_bind, Hsat_free; [done|]. unfold Hsat at 1. eexists _, _. split; [done|]. apply Hfin; auto; simpl; rewrite ?Ew; auto; [by apply remove_perm|].
      rewrite (remove_perm _ _ Hb) in Hq. apply elem_of_cons in Hq as [?|?]; [done|done].
    + unfold Hbind, on_world, free. unfold Hsat at 1. eexists _, _. split; [done|]. apply Hfin; auto; unfold owned; by rewrite Ex, Eb.
Qed.

(** scc_get_clustering_info. *)
Lemma Hsat_info p a b h : inv h -> handle h p ->
  Hsat (get_clustering_info cfg p a b) h (fun '(ec, (n, k)) h' =>
    (ec = ER_OK /\ h' = h /\ exists q o, p = Some q /\ h_obj h !! q = Some o /\ n = (if a then Some (ob_n o) else None) /\ k = (if b then Some (ob_k o) else None)) \/
    (failed h ec h' /\ ec = ER_INVALID_INPUT /\ n = None /\ k = None /\ p = None)).
Proof.
  intros Hi Hp. unfold get_clustering_info. destruct p as [q|]; simpl in Hp.
  - destruct Hp as [o Eo]. apply Hsat_bind. unfold ptr_initialized. apply Hsat_bind. eapply Hsat_get_obj; [done|]. apply Hsat_ret. rewrite (i_init _ _ Hi _ _ Eo). cbn [negb].
    apply Hsat_bind. eapply Hsat_get_obj; [done|]. apply Hsat_ret. left. splits; auto. exists q, o. auto.
  - apply Hsat_bind, Hsat_ret. cbn [negb]. apply Hsat_bind, Hsat_make_error, Hsat_ret. right. splits; auto. constructor; simpl; auto; split; auto.
Qed.

Lemma forH_sat (I : nat -> heap -> Prop) n i f h (Q : unit -> heap -> Prop) : I i h ->
  (forall j h, i <= j < i + n -> I j h -> Hsat (f j) h (fun _ h' => I (S j) h')) -> (forall h, I (i + n) h -> Q tt h) -> Hsat (forH n i f) h Q.
Proof.
  revert i h. induction n as [|n IH]; intros i h H0 Hs Hq; simpl.
  - apply Hsat_ret, Hq. by rewrite Nat.add_0_r.
  - apply Hsat_bind. eapply Hsat_mono; [apply Hs; [lia|done]|]. simpl. intros [] h' H1. apply (IH (S i)); auto.
    + intros j h1 Hj. apply Hs. lia.
    + intros h1. rewrite <- plus_n_Sm in Hq. apply Hq.
Qed.

(** The buffer after scc_get_cluster_labels. *)
Definition filled (len n : nat) (labels buf : list (option Z)) : list (option Z) :=
  take len labels ++ replicate (len - n) (Some (cl_na cfg)) ++ drop len buf.

Lemma insert_take_drop {A} i (a l : list A) x : i <= length a -> i < length l -> <[i := x]> (take i a ++ drop i l) = take i a ++ x :: drop (S i) l.
Proof.
  intros Ha Hl. assert (length (take i a) = i) as E by (rewrite take_length; lia). rewrite <- E at 1. replace (length (take i a)) with (length (take i a) + 0) by lia. rewrite insert_app_r.
  destruct (lookup_lt_is_Some_2 l i Hl) as [y Hy]. by rewrite (drop_S _ _ _ Hy).
Qed.

Lemma Hsat_labels p len buf h : inv h -> handle h p -> (forall b, buf = Some b -> exists l, user_arr h b l /\ len <= length l) ->
  Hsat (get_cluster_labels cfg p len buf) h (fun ec h' =>
    (ec = ER_OK /\ len <> 0 /\ exists q o s ls b l, p = Some q /\ h_obj h !! q = Some o /\ ob_k o <> 0 /\ ob_label o = Some s /\ h_arr h !! s = Some ls /\ buf = Some b /\ h_arr h !! b = Some l /\
       h' = Heap (h_w h) (<[b := filled len (ob_n o) (take (ob_n o) ls) l]> (h_arr h)) (h_obj h)) \/
    (failed h ec h' /\ ec = ER_INVALID_INPUT /\ (buf = None \/ len = 0 \/ p = None \/ exists q o, p = Some q /\ h_obj h !! q = Some o /\ ob_k o = 0))).
Proof.
  intros Hi Hp Hb. assert (forall msg line (r : Prop), r -> Hsat (on_world (make_error__ ER_INVALID_INPUT msg src_scclust line)) h (fun ec h' => failed h ec h' /\ ec = ER_INVALID_INPUT /\ r)) as Hfail.
  { intros msg line r Hr. apply Hsat_make_error. splits; auto. constructor; simpl; auto; split; auto. }
  unfold get_cluster_labels. destruct p as [q|]; simpl in Hp.
  2: { apply Hsat_bind, Hsat_ret. cbn [negb]. eapply Hsat_mono; [apply (Hfail _ _ True); done|]. intros ec h' (? & ? & _). right. splits; auto. }
  destruct Hp as [o Eo]. apply Hsat_bind. unfold ptr_initialized. apply Hsat_bind. eapply Hsat_get_obj; [done|]. apply Hsat_ret. pose proof (i_init _ _ Hi _ _ Eo) as Hin. rewrite Hin. cbn [negb].
  apply Hsat_bind. eapply Hsat_get_obj; [done|]. destruct (decide (ob_k o = 0)) as [Hk|Hk].
  { eapply Hsat_mono; [apply (Hfail _ _ True); done|]. intros ec h' (? & ? & _). right. splits; auto. right. right. right. eauto. }
  destruct (decide (len = 0)) as [Hl|Hl].
  { eapply Hsat_mono; [apply (Hfail _ _ True); done|]. intros ec h' (? & ? & _). right. splits; auto. }
  destruct buf as [b|]. 2: { eapply Hsat_mono; [apply (Hfail _ _ True); done|]. intros ec h' (? & ? & _). right. splits; auto. }
  destruct (Hb b eq_refl) as (l & [Eb Hlive] & Hlen).
  assert (exists s, ob_label o = Some s) as [s Es].
  { destruct o as [v n k lab ext]. apply init_true in Hin as (_ & _ & _ & _ & [?|?]); simpl in *; [lia|]. destruct lab; [eauto|done]. }
  destruct (i_label _ _ Hi _ _ _ Eo Es) as (ls & Els & Hls & _). rewrite Es.
  set (at_ := fun i => Heap (h_w h) (<[b := take i ls ++ drop i l]> (h_arr h)) (h_obj h)).
  set (m := len `min` ob_n o).
  apply Hsat_bind. apply (forH_sat (fun i h' => h' = at_ i)).
  - unfold at_. cbn [take drop app]. rewrite insert_id by done. by destruct h.
  - intros i h' Hi' ->. unfold get_elem, set_elem. destruct (lookup_lt_is_Some_2 ls i) as [x Hx]; [unfold m in *; lia|].
    assert (i < length l) by (unfold m in *; lia).
    assert (h_arr (at_ i) !! s = Some (if decide (s = b) then take i ls ++ drop i l else ls)) as E1.
    { unfold at_. simpl. destruct (decide (s = b)) as [->|]; [by rewrite lookup_insert|by rewrite lookup_insert_ne]. }
    apply Hsat_bind, Hsat_bind. eapply Hsat_get_arr; [exact E1|].
    assert ((if decide (s = b) then take i ls ++ drop i l else ls) !! i = Some x) as ->.
    { destruct (decide (s = b)) as [->|]; [|done]. assert (l = ls) as -> by congruence. by rewrite take_drop. }
    apply Hsat_ret. apply Hsat_bind. eapply Hsat_get_arr; [by unfold at_; simpl; rewrite lookup_insert|]. rewrite decide_True by (rewrite app_length, take_length, drop_length; lia).
    apply Hsat_put_arr. unfold at_. simpl. rewrite insert_insert, insert_take_drop by lia. by rewrite (take_S_r _ _ _ Hx), <- app_assoc.
  - intros h1 ->. replace (0 + m) with m by lia.
    assert (Hsat (forH (len - ob_n o) (ob_n o) (fun i => set_elem b i (Some (cl_na cfg)))) (at_ m) (fun _ h' => h' = Heap (h_w h) (<[b := filled len (ob_n o) (take (ob_n o) ls) l]> (h_arr h)) (h_obj h))) as Hrest.
    { destruct (decide (ob_n o <= len)) as [Hn|Hn].
      - assert (m = ob_n o) as Em by (unfold m; lia). apply (forH_sat (fun i h' => h' = Heap (h_w h) (<[b := (take (ob_n o) ls ++ replicate (i - ob_n o) (Some (cl_na cfg))) ++ drop i l]> (h_arr h)) (h_obj h))).
        + unfold at_. rewrite Em. replace (ob_n o - ob_n o) with 0 by lia. simpl. by rewrite app_nil_r.
        + intros i h' Hi' ->. unfold set_elem. apply Hsat_bind. eapply Hsat_get_arr; [simpl; by rewrite lookup_insert|].
          set (a := take (ob_n o) ls ++ replicate (i - ob_n o) (Some (cl_na cfg))). assert (length a = i) as Ea by (unfold a; rewrite app_length, take_length, replicate_length; lia).
          rewrite decide_True by (rewrite app_length, drop_length; lia). apply Hsat_put_arr. simpl. rewrite insert_insert. f_equal. f_equal.
          replace (a ++ drop i l) with (take i a ++ drop i l) by (by rewrite take_ge by lia). rewrite insert_take_drop by lia. rewrite take_ge by lia.
          replace (S i - ob_n o) with (S (i - ob_n o)) by lia. rewrite replicate_S_end. unfold a. by rewrite <- !app_assoc.
        + intros h' ->. unfold filled. replace (ob_n o + (len - ob_n o)) with len by lia. rewrite (take_ge (take (ob_n o) ls)) by (rewrite take_length; lia). by rewrite <- app_assoc.
      - replace (len - ob_n o) with 0 by lia. apply Hsat_ret. unfold at_, filled. replace (len - ob_n o) with 0 by lia. simpl. rewrite take_take. replace (len `min` ob_n o) with m by done. assert (m = len) as -> by (unfold m; lia). done. }
    apply Hsat_bind. eapply Hsat_mono; [exact Hrest|]. simpl. intros _ h' ->. apply Hsat_ret. left. splits; auto. exists q, o, s, ls, b, l. splits; auto.
Qed.

Lemma failed_inv h ec h' : inv h -> failed h ec h' -> inv h'.
Proof. intros Hi [H1 H2 H3 H4 [_ H5] _]. destruct h' as [w a o]. simpl in *. subst. by apply (inv_world h w). Qed.
Lemma failed_kept h o ec h' : failed h ec h' -> kept h o h'.
Proof. intros [H1 H2 H3 H4 [_ H5] _]. constructor; rewrite ?H2, ?H3; eauto; [intros b; rewrite H4; auto|]. intros b l [E _] _. eauto. Qed.

(** Computing a clustering. *)
Lemma Hsat_run_call f p h c : inv h -> view h p = Some c -> good_call cfg f c (h_w h) ->
  Hsat (run_call f p) h (fun _ h' => inv h' /\ kept h (ORun f p) h').
Proof.
  intros Hi Hv Hg. unfold view in Hv. destruct (h_obj h !! p) as [o|] eqn:Eo; [|done]. injection Hv as <-. set (c := view_of o (h_arr h)) in *.
  unfold run_call. apply Hsat_bind. eapply Hsat_get_obj; [done|]. fold c. unfold good_call in Hg. apply Msat_none in Hg as ([ec c'] & w' & E & (Hw & Ht & Ho & Hk & Hok & Hin & Hf)). unfold Hsat. cbv beta. fold c. rewrite E.
  eexists _, _. split; [done|]. destruct Hk as [K1 K2 K3]. pose proof (i_live _ _ Hi) as Hlive. change (w_live (h_w h) ≡ₚ all_blocks (h_obj h)) in Hlive. rewrite (all_blocks_del _ _ _ Eo) in Hlive.
  assert (c_n c = ob_n o) as En by done.
  set (o' := Obj (c_version c') (c_n c') (c_k c') (a ← c_label c'; Some (a_blk a)) (c_ext c')).
  assert (obj_initialized cfg o' = true) as Hin'.
  { unfold o'. apply init_true. clear -Hin. unfold is_initialized_clustering in Hin.
    destruct (decide (c_version c' <> clustering_version)) as [|Hv]; [done|]. destruct (decide (c_n c' = 0)); [done|].
    destruct (N.ltb_spec (pi_max cfg) (N.of_nat (c_n c'))); [done|]. destruct (N.ltb_spec (cl_max cfg) (N.of_nat (c_k c'))); [done|]. splits; auto.
    - destruct (decide (c_version c' = clustering_version)); done.
    - destruct (c_label c') as [a|]; [by right|]. destruct (decide (0 < c_k c')); [done|]. left. lia. }
  assert (length (default [] (b ← ob_label o; h_arr h !! b)) >= ob_n o \/ ob_label o = None) as Hlen0.
  { destruct (ob_label o) as [b|] eqn:Eb; [left|by right]. destruct (i_label _ _ Hi _ _ _ Eo Eb) as (l & El & Hl & _). simpl. rewrite El. simpl. lia. }
  destruct (c_label c') as [[b' cells']|] eqn:El'; unfold clu_ok in Hok; rewrite El' in Hok; simpl in Hok.
  - (* labels in the result *)
    unfold labels_own in Ho. rewrite El' in Ho. unfold c, view_of in K3, Ho, Hf. simpl in K3, Ho, Hf. destruct (ob_label o) as [b|] eqn:Eb; simpl in K3, Ho, Hf.
    + (* kept *)
      destruct K3 as (-> & _ & Kx). simpl in Ho. destruct (i_label _ _ Hi _ _ _ Eo Eb) as (l & El & Hl & Hl2 & Hl3).
      assert (w_live w' ≡ₚ w_live (h_w h)) as Hp. { apply cnt_perm. intros x. specialize (Ho x). lia. }
      assert (owned o' = owned o) as Eown. { unfold owned, o'. simpl. rewrite Kx, Eb. done. }
      assert (b <> p) as Hbp. { intros ->. by rewrite (i_noarr _ _ Hi _ _ Eo) in El. }
      unfold write_back. cbn [a_blk a_cells]. rewrite El. cbn [default]. set (l' := cells' ++ drop (ob_n o) l).
      assert (length l' = length l) as Hll. { unfold l'. rewrite app_length, drop_length. rewrite K2 in Hok. lia. }
      split; constructor; simpl.
      * rewrite Hp, Hlive. change (obj_blocks (p, o) ++ all_blocks (delete p (h_obj h)) ≡ₚ all_blocks (<[p := o']> (h_obj h))). rewrite (all_blocks_upd _ _ _ _ Eo). unfold obj_blocks. simpl. by rewrite Eown.
      * done.
      * intros b0 l0 E0. apply lookup_insert_Some in E0 as [[<- <-]|[? E0]]; [apply (i_arr _ _ Hi) in El; lia|]. apply (i_arr _ _ Hi) in E0. lia.
      * intros q oq Eq. apply lookup_insert_Some in Eq as [[<- <-]|[? Eq]]; [done|by eapply i_init].
      * intros q oq Eq. assert (h_arr h !! q = None) as Eq'. { apply lookup_insert_Some in Eq as [[<- <-]|[? Eq]]; by eapply i_noarr. } rewrite lookup_insert_ne; [done|]. intros ->. congruence.
      * intros q oq b0 Eq Eb0. assert (exists oo, h_obj h !! q = Some oo /\ ob_label oo = Some b0 /\ ob_n oq = ob_n oo /\ ob_ext oq = ob_ext oo) as (oo & Eoo & E1 & E2 & E3).
        { apply lookup_insert_Some in Eq as [[<- <-]|[? Eq]]; [|by exists oq]. exists o. unfold o' in *. simpl in *. splits; auto. congruence. }
        destruct (i_label _ _ Hi _ _ _ Eoo E1) as (l0 & F1 & F2 & F3 & F4). rewrite E2, E3.
        destruct (decide (b0 = b)) as [->|Hne].
        -- exists l'. rewrite lookup_insert. assert (l0 = l) as -> by congruence. rewrite Hll. splits; auto. intros Hx. rewrite Hp. auto.
        -- exists l0. rewrite lookup_insert_ne by done. splits; auto. intros Hx. rewrite Hp. auto.
      * intros b0 l0 E0 Hn0. rewrite lookup_insert_ne; [done|]. intros ->. apply Hn0. eauto.
      * intros q oq Eq Hn0. by rewrite lookup_insert_ne by done.
      * done.
      * intros b0. rewrite Hp. auto.
      * intros q oq [[<- _]|[_ Eq]]%lookup_insert_Some; eauto.
      * intros b0 l0 [E0 _] _. destruct (decide (b0 = b)) as [->|]; [rewrite lookup_insert|rewrite lookup_insert_ne by done; eauto]. exists l'. split; [done|]. congruence.
    + (* allocated *)
      destruct K3 as (Kl & Kx). simpl in Ho.
      assert (w_live w' ≡ₚ b' :: w_live (h_w h)) as Hp. { apply cnt_perm. intros x. specialize (Ho x). simpl. lia. }
      assert (owned o' = [b']) as Eown. { unfold owned, o'. simpl. by rewrite Kx. } assert (owned o = []) as Eown0. { unfold owned. rewrite Eb. by destruct (ob_ext o). }
      assert (h_arr h !! b' = None) as Eb'. { apply inv_fresh_arr; [done|]. lia. } assert (h_obj h !! b' = None) as Eb''. { apply inv_fresh_obj; [done|]. lia. }
      unfold write_back. cbn [a_blk a_cells]. rewrite Eb'. cbn [default]. rewrite drop_nil, app_nil_r.
      split; constructor; simpl.
      * rewrite Hp, Hlive. change (b' :: obj_blocks (p, o) ++ all_blocks (delete p (h_obj h)) ≡ₚ all_blocks (<[p := o']> (h_obj h))). rewrite (all_blocks_upd _ _ _ _ Eo). unfold obj_blocks. simpl. rewrite Eown, Eown0. simpl. constructor.
      * done.
      * intros b0 l0 E0. apply lookup_insert_Some in E0 as [[<- <-]|[? E0]]; [lia|]. apply (i_arr _ _ Hi) in E0. lia.
      * intros q oq Eq. apply lookup_insert_Some in Eq as [[<- <-]|[? Eq]]; [done|by eapply i_init].
      * intros q oq Eq. assert (h_arr h !! q = None /\ q <> b') as [Eq' Hne]. { apply lookup_insert_Some in Eq as [[<- <-]|[? Eq]]; (split; [by eapply i_noarr|congruence]). } by rewrite lookup_insert_ne.
      * intros q oq b0 Eq Eb0. apply lookup_insert_Some in Eq as [[<- <-]|[? Eq]].
        -- unfold o' in Eb0. simpl in Eb0. injection Eb0 as <-. exists cells'. rewrite lookup_insert. unfold o'. simpl. splits; auto; [lia|]. congruence.
        -- destruct (i_label _ _ Hi _ _ _ Eq Eb0) as (l0 & F1 & F2 & F3 & F4). exists l0. rewrite lookup_insert_ne by congruence. splits; auto. intros Hx. rewrite Hp, not_elem_of_cons. split; [congruence|auto].
      * intros b0 l0 E0 _. rewrite lookup_insert_ne; [done|congruence].
      * intros q oq Eq Hn0. by rewrite lookup_insert_ne by done.
      * done.
      * intros b0. rewrite Hp. intros [->|?]%elem_of_cons; [right; lia|auto].
      * intros q oq [[<- _]|[_ Eq]]%lookup_insert_Some; eauto.
      * intros b0 l0 [E0 _] _. rewrite lookup_insert_ne by congruence. eauto.
  - (* no labels *)
    unfold labels_own in Ho. rewrite El' in Ho. unfold c, view_of in K3, Ho. simpl in K3, Ho. destruct (ob_label o) as [b|] eqn:Eb; simpl in K3, Ho; [done|]. simpl in Ho.
    assert (w_live w' ≡ₚ w_live (h_w h)) as Hp. { apply cnt_perm. intros x. specialize (Ho x). lia. }
    assert (owned o' = owned o) as Eown. { unfold owned, o'. simpl. rewrite Eb. by destruct (c_ext c'), (ob_ext o). }
    split; constructor; simpl; auto.
    + rewrite Hp, Hlive. change (obj_blocks (p, o) ++ all_blocks (delete p (h_obj h)) ≡ₚ all_blocks (<[p := o']> (h_obj h))). rewrite (all_blocks_upd _ _ _ _ Eo). unfold obj_blocks. simpl. by rewrite Eown.
    + intros b0 l0 E0. apply (i_arr _ _ Hi) in E0. lia.
    + intros q oq Eq. apply lookup_insert_Some in Eq as [[<- <-]|[? Eq]]; [done|by eapply i_init].
    + intros q oq Eq. apply lookup_insert_Some in Eq as [[<- <-]|[? Eq]]; by eapply i_noarr.
    + intros q oq b0 Eq Eb0. apply lookup_insert_Some in Eq as [[<- <-]|[? Eq]]; [done|]. destruct (i_label _ _ Hi _ _ _ Eq Eb0) as (l0 & F1 & F2 & F3 & F4). exists l0. splits; auto. intros Hx. rewrite Hp. auto.
    + intros q oq Eq Hn0. by rewrite lookup_insert_ne by done.
    + intros b0. rewrite Hp. auto.
    + intros q oq [[<- _]|[_ Eq]]%lookup_insert_Some; eauto.
    + intros b0 l0 [E0 _] _. eauto.
Qed.

(** ** Every legal step *)

Lemma size_nat num : size_ok num -> N.to_nat num <> 0 /\ (N.of_nat (N.to_nat num) <= pi_max cfg)%N.
Proof. intros (? & ? & _). lia. Qed.

Theorem step_safe h o : inv h -> legal cfg h o -> Hsat (step cfg o) h (fun _ h' => inv h' /\ kept h o h').
Proof.
  intros Hi Hl. destruct o as [num ext out|num k labels deep out|p out|p a b|p len buf|p|l|b i x|b|f p]; simpl in Hl; unfold step.
  - (* init empty *)
    apply Hsat_bind. eapply Hsat_mono; [apply Hsat_init_empty|]. intros [ec r] h' Hp. apply Hsat_ret. destruct Hp as [(_ & _ & Hs & _ & H1 & _ & H2 & _ & H3 & H4)|(Hf & _)].
    2: { split; [by eapply failed_inv|by eapply failed_kept]. }
    destruct h' as [w' a' o']. simpl in *. subst a' o'. split.
    + apply inv_new; auto.
      * apply init_true. destruct (size_nat _ Hs). splits; auto. lia.
      * unfold owned. simpl. destruct ext; simpl; done.
      * simpl. intros b ->. destruct Hl as (l & [E1 E2] & E3). exists l. splits; auto; [lia|]. rewrite bool_decide_true by eauto. done.
    + constructor; simpl; auto; [|lia| | |].
      * intros p ob E _. rewrite lookup_insert_ne; [done|]. apply inv_obj_lt in E; [lia|done].
      * intros b. rewrite H1. intros [->|?]%elem_of_cons; auto.
      * intros p0 ob0 [[<- _]|[_ E0]]%lookup_insert_Some; eauto.
      * intros b l [E _] _. eauto.
  - (* init existing *)
    set (l := match labels with Some b => default [] (h_arr h !! b) | None => [] end).
    apply Hsat_bind. eapply Hsat_mono; [apply (Hsat_init_existing _ _ _ _ _ _ l); [|done]|].
    { intros b ->. destruct Hl as (l1 & [E1 E2] & E3). unfold l. rewrite E1. split; [done|]. done. }
    intros [ec r] h' Hp. apply Hsat_ret. cbv zeta in Hp. destruct Hp as [(_ & (_ & Hs & Hk & Hk2 & _ & Hlab) & _ & _ & _ & Hd)|(Hf & _)].
    2: { split; [by eapply failed_inv|by eapply failed_kept]. }
    destruct labels as [b|]; [|done]. destruct Hl as (l1 & [E1 E2] & E3). unfold l in *. rewrite E1 in Hd. simpl in Hd. clear l. destruct (size_nat _ Hs).
    destruct h' as [w' a' o']. destruct deep; destruct Hd as (D1 & D2 & D3 & D4); simpl in *; subst a' o'; split.
    + apply inv_new_owned; auto; [|simpl; rewrite take_length; lia]. apply init_true. splits; auto; try lia; by right.
    + constructor; simpl; auto; [| |lia| | |].
      * intros b0 l0 E0 _. rewrite lookup_insert_ne; [done|]. apply (i_arr _ _ Hi) in E0. lia.
      * intros p ob E _. rewrite lookup_insert_ne; [done|]. apply inv_obj_lt in E; [lia|done].
      * intros b0. rewrite D1. intros [->|[->|?]%elem_of_cons]%elem_of_cons; auto.
      * intros p0 ob0 [[<- _]|[_ E0]]%lookup_insert_Some; eauto.
      * intros b0 l0 [E0 _] _. rewrite lookup_insert_ne; [eauto|]. apply (i_arr _ _ Hi) in E0. lia.
    + apply inv_new; auto.
      * apply init_true. splits; auto; try lia; by right.
      * simpl. intros b0 [= <-]. exists l1. splits; auto; [lia|done].
    + constructor; simpl; auto; [|lia| | |].
      * intros p ob E _. rewrite lookup_insert_ne; [done|]. apply inv_obj_lt in E; [lia|done].
      * intros b0. rewrite D1. intros [->|?]%elem_of_cons; auto.
      * intros p0 ob0 [[<- _]|[_ E0]]%lookup_insert_Some; eauto.
      * intros b0 l0 [E0 _] _. eauto.
  - (* copy *)
    apply Hsat_bind. eapply Hsat_mono; [by apply Hsat_copy|]. intros [ec r] h' Hp. apply Hsat_ret. destruct Hp as [(_ & _ & _ & q & o & l & -> & Eo & Hlab & Hc)|(Hf & _)].
    2: { split; [by eapply failed_inv|by eapply failed_kept]. }
    unfold copies in Hc. cbv zeta in Hc. destruct Hc as (_ & _ & Hd). pose proof (i_init _ _ Hi _ _ Eo) as Hin. destruct o as [v n k lab ext]. simpl in *. apply init_true in Hin as (_ & Hin1 & Hin2 & Hin3 & Hin4).
    destruct h' as [w' a' o']. destruct (decide (0 < k)) as [Hk0|Hk0]; destruct Hd as (D1 & D2 & D3 & D4); simpl in *; subst a' o'; split.
    + destruct Hin4 as [->|Hn]; [lia|]. destruct lab as [b|]; [|done]. pose proof (Hlab _ eq_refl) as El. destruct (i_label _ _ Hi _ _ b Eo eq_refl) as (l' & El' & Hlen & _). assert (l' = l) as -> by congruence. simpl in *.
      apply inv_new_owned; auto; [|simpl; rewrite take_length; lia]. apply init_true. splits; auto; by right.
    + constructor; simpl; auto; [| |lia| | |].
      * intros b0 l0 E0 _. rewrite lookup_insert_ne; [done|]. apply (i_arr _ _ Hi) in E0. lia.
      * intros p ob E _. rewrite lookup_insert_ne; [done|]. apply inv_obj_lt in E; [lia|done].
      * intros b0. rewrite D1. intros [->|[->|?]%elem_of_cons]%elem_of_cons; auto.
      * intros p0 ob0 [[<- _]|[_ E0]]%lookup_insert_Some; eauto.
      * intros b0 l0 [E0 _] _. rewrite lookup_insert_ne; [eauto|]. apply (i_arr _ _ Hi) in E0. lia.
    + apply inv_new; auto; [|done..]. apply init_true. splits; auto. lia.
    + constructor; simpl; auto; [|lia| | |].
      * intros p ob E _. rewrite lookup_insert_ne; [done|]. apply inv_obj_lt in E; [lia|done].
      * intros b0. rewrite D1. intros [->|?]%elem_of_cons; auto.
      * intros p0 ob0 [[<- _]|[_ E0]]%lookup_insert_Some; eauto.
      * intros b0 l0 [E0 _] _. eauto.
  - (* info *)
    apply Hsat_bind. eapply Hsat_mono; [by apply Hsat_info|]. intros [ec [n k]] h' Hp. apply Hsat_ret. destruct Hp as [(_ & -> & _)|(Hf & _)]; [|split; [by eapply failed_inv|by eapply failed_kept]].
    split; [done|]. constructor; eauto. intros b0 l0 [E0 _] _. eauto.
  - (* labels *)
    destruct Hl as [Hl Hb]. apply Hsat_bind. eapply Hsat_mono; [apply Hsat_labels; auto; intros b ->; done|]. intros ec h' Hp. apply Hsat_ret.
    destruct Hp as [(_ & _ & q & o & s & ls & b & l & -> & Eo & Hk & Es & Els & -> & Eb & ->)|(Hf & _)]; [|split; [by eapply failed_inv|by eapply failed_kept]].
    destruct Hb as (l1 & [E1 E2] & Hlen). assert (l1 = l) as -> by congruence.
    destruct (i_label _ _ Hi _ _ _ Eo Es) as (ls' & F1 & F2 & _). assert (ls' = ls) as -> by congruence.
    set (l' := filled len (ob_n o) (take (ob_n o) ls) l). assert (length l' = length l) as Hll.
    { unfold l', filled. rewrite !app_length, !take_length, replicate_length, drop_length. lia. }
    split; constructor; simpl; eauto.
    + apply Hi.
    + apply Hi.
    + intros b0 l0 E0. apply lookup_insert_Some in E0 as [[<- <-]|[? E0]]; by eapply (i_arr _ _ Hi).
    + apply Hi.
    + intros q0 oq Eq. rewrite lookup_insert_ne; [by eapply i_noarr|]. intros ->. by rewrite (i_noarr _ _ Hi _ _ Eq) in Eb.
    + intros q0 oq b0 Eq Eb0. destruct (i_label _ _ Hi _ _ _ Eq Eb0) as (l0 & G1 & G2 & G3 & G4). destruct (decide (b0 = b)) as [->|]; [rewrite lookup_insert|rewrite lookup_insert_ne by done; exists l0; auto].
      exists l'. assert (l0 = l) as -> by congruence. rewrite Hll. auto.
    + intros b0 l0 E0 Hn0. by rewrite lookup_insert_ne by done.
    + intros b0 l0 [E0 _] _. destruct (decide (b0 = b)) as [->|]; [rewrite lookup_insert|rewrite lookup_insert_ne by done; eauto]. exists l'. split; [done|]. congruence.
  - (* free *)
    apply Hsat_bind. eapply Hsat_mono; [by apply Hsat_free_clustering|]. intros [] h' (Hw & Hn & He & Hp). apply Hsat_ret. destruct p as [q|].
    2: { subst h'. split; [done|]. constructor; eauto. intros b0 l0 [E0 _] _. eauto. }
    destruct Hp as (o & Eo & Hlive & Hobj & Harr). pose proof (i_live _ _ Hi) as Hal. change (w_live (h_w h) ≡ₚ all_blocks (h_obj h)) in Hal. rewrite (all_blocks_del _ _ _ Eo), Hlive in Hal. apply Permutation_app_inv_l in Hal.
    destruct (i_tidy _ _ Hi) as [HN HF]. rewrite Hlive in HN, HF.
    assert (forall b, h_arr h' !! b = if decide (b ∈ owned o) then None else h_arr h !! b) as Harr'.
    { intros b. rewrite Harr. assert (owned o = [] \/ exists b, owned o = [b]) as [->|(b1 & ->)]. { unfold owned. destruct (ob_ext o), (ob_label o); eauto. }
      - by rewrite decide_False by (by apply not_elem_of_nil).
      - destruct (decide (b = b1)) as [->|]; [rewrite lookup_delete, decide_True by (by left); done|]. rewrite lookup_delete_ne by done. rewrite decide_False; [done|]. rewrite elem_of_list_singleton. done. }
    split; constructor.
    + rewrite Hobj. done.
    + split; [by apply NoDup_app in HN as (_ & _ & ?)|]. apply Forall_app in HF as [_ HF]. by rewrite Hn.
    + intros b l. rewrite Harr', Hn. destruct (decide _); [done|]. apply Hi.
    + intros p o'. rewrite Hobj. intros [_ E]%lookup_delete_Some. by eapply i_init.
    + intros p o'. rewrite Hobj. intros [_ E]%lookup_delete_Some. rewrite Harr'. destruct (decide _); [done|]. by eapply i_noarr.
    + intros p o' b. rewrite Hobj. intros [Hne E]%lookup_delete_Some Eb. destruct (i_label _ _ Hi _ _ _ E Eb) as (l & G1 & G2 & G3 & G4). exists l. rewrite Harr'. rewrite decide_False.
      { splits; auto. intros Hx Hin. apply (G4 Hx). rewrite Hlive, elem_of_app. auto. }
      intros Hin. destruct (ob_ext o') eqn:Ex; [apply (G4 eq_refl); by eapply (inv_owned h q o)|]. eapply (inv_owner h q p o o' b); eauto. unfold owned. rewrite Ex, Eb. by left.
    + intros b l E Hb. rewrite Harr'. rewrite decide_False; [done|]. intros Hin. apply Hb. simpl. eauto.
    + intros p o' E Hp. rewrite Hobj, lookup_delete_ne; [done|]. intros ->. by apply Hp.
    + lia.
    + intros b Hb. left. rewrite Hlive, elem_of_app. auto.
    + intros p ob. rewrite Hobj. intros [_ E]%lookup_delete_Some. eauto.
    + intros b l [E Hb] _. rewrite Harr'. rewrite decide_False; [eauto|]. intros Hin. apply Hb. by eapply inv_owned.
  - (* a new user array *)
    apply Hsat_bind. unfold user_new, Hsat. eexists _, _. split; [done|]. eexists _, _. split; [done|]. assert (h_arr h !! w_next (h_w h) = None) as Ea by (by apply inv_fresh_arr). assert (h_obj h !! w_next (h_w h) = None) as Eo by (by apply inv_fresh_obj).
    assert (w_next (h_w h) ∉ w_live (h_w h)) as Hnl. { intros Hin. apply inv_live_lt in Hin; [lia|done]. }
    destruct (i_tidy _ _ Hi) as [HN HF]. split; constructor; simpl; eauto.
    + apply Hi.
    + split; [done|]. simpl. eapply Forall_impl; [done|]. simpl. lia.
    + intros b0 l0 E0. apply lookup_insert_Some in E0 as [[<- <-]|[? E0]]; [lia|]. apply (i_arr _ _ Hi) in E0. lia.
    + apply Hi.
    + intros q oq Eq. rewrite lookup_insert_ne; [by eapply i_noarr|]. congruence.
    + intros q oq b0 Eq Eb0. destruct (i_label _ _ Hi _ _ _ Eq Eb0) as (l0 & G1 & G2). exists l0. rewrite lookup_insert_ne by congruence. done.
    + intros b0 l0 E0 _. rewrite lookup_insert_ne; [done|congruence].
    + intros b0 l0 [E0 _] _. rewrite lookup_insert_ne by congruence. eauto.
  - (* a user's write *)
    destruct Hl as (l & [Eb Hb] & Hx). apply Hsat_bind. unfold set_elem. apply Hsat_bind. eapply Hsat_get_arr; [done|]. rewrite decide_True by done. apply Hsat_put_arr. apply Hsat_ret.
    set (l' := <[i := Some x]> l). assert (length l' = length l) as Hll by (unfold l'; by rewrite insert_length).
    split; constructor; simpl; eauto.
    + apply Hi.
    + apply Hi.
    + intros b0 l0 E0. apply lookup_insert_Some in E0 as [[<- <-]|[? E0]]; by eapply (i_arr _ _ Hi).
    + apply Hi.
    + intros q0 oq Eq. rewrite lookup_insert_ne; [by eapply i_noarr|]. intros ->. by rewrite (i_noarr _ _ Hi _ _ Eq) in Eb.
    + intros q0 oq b0 Eq Eb0. destruct (i_label _ _ Hi _ _ _ Eq Eb0) as (l0 & G1 & G2 & G3 & G4). destruct (decide (b0 = b)) as [->|]; [rewrite lookup_insert|rewrite lookup_insert_ne by done; exists l0; auto].
      exists l'. assert (l0 = l) as -> by congruence. rewrite Hll. auto.
    + intros b0 l0 E0 Hn0. by rewrite lookup_insert_ne by done.
    + intros b0 l0 [E0 _] _. destruct (decide (b0 = b)) as [->|]; [rewrite lookup_insert|rewrite lookup_insert_ne by done; eauto]. exists l'. split; [done|]. congruence.
  - (* dropping a user's array *)
    destruct Hl as [(l & Eb & Hb) Hno]. unfold Hsat. eexists _, _. split; [done|]. split; constructor; simpl; eauto.
    + apply Hi.
    + apply Hi.
    + intros b0 l0 [_ E0]%lookup_delete_Some. by eapply (i_arr _ _ Hi).
    + apply Hi.
    + intros q0 oq Eq. apply lookup_delete_None. right. by eapply i_noarr.
    + intros q0 oq b0 Eq Eb0. destruct (i_label _ _ Hi _ _ _ Eq Eb0) as (l0 & G1 & G2). exists l0. rewrite lookup_delete_ne; [done|]. intros <-. by eapply Hno.
    + intros b0 l0 E0 Hn0. rewrite lookup_delete_ne; [done|]. congruence.
    + intros b0 l0 [E0 _] Hne. rewrite lookup_delete_ne; [eauto|]. congruence.
  - (* a computation *)
    destruct Hl as (c & Hv & Hg). apply Hsat_bind. eapply Hsat_mono; [by eapply Hsat_run_call|]. intros ec h' ?. by apply Hsat_ret.
Qed.
End Proof.
