(** Two runs of the same function compared: if both return, their results agree,
    unless one of them reports a failure. *)

From stdpp Require Import prelude list sorting.
From Coq Require Import NArith ZArith.
From Verif Require Import Base World Mem Float Options Spi Dist Digraph SortIdx Nng Seeds Batch NngClustering Hier Report.

(** ** What it means for results to agree *)

(** Block numbers may differ; array cells agree where both hold a value. *)
Definition cel {A} (Q : A -> A -> Prop) (c d : list (option A)) : Prop :=
  forall i x y, c !! i = Some (Some x) -> d !! i = Some (Some y) -> Q x y.
Definition ar {A} (Q : A -> A -> Prop) (a b : arr A) : Prop := cel Q (a_cells a) (a_cells b).
Definition op {A} (Q : A -> A -> Prop) (x y : option A) : Prop :=
  match x, y with Some a, Some b => Q a b | None, None => True | _, _ => False end.
Definition pr {A B} (Q : A -> A -> Prop) (Q' : B -> B -> Prop) (x y : A * B) : Prop := Q x.1 y.1 /\ Q' x.2 y.2.
Definition sm {A B} (Q : A -> A -> Prop) (Q' : B -> B -> Prop) (x y : A + B) : Prop :=
  match x, y with inl a, inl b => Q a b | inr a, inr b => Q' a b | _, _ => False end.
(** Either may be NULL. *)
Definition lo {A} (Q : A -> A -> Prop) (p q : option (arr A)) : Prop := forall a b, p = Some a -> q = Some b -> ar Q a b.
Definition dgr (a b : digraph) : Prop :=
  dg_n a = dg_n b /\ dg_max a = dg_max b /\ op (ar eq) (dg_head a) (dg_head b) /\ op (ar eq) (dg_tail a) (dg_tail b).
Definition srr (a b : seed_result) : Prop := sr_cap a = sr_cap b /\ sr_count a = sr_count b /\ op (ar eq) (sr_seeds a) (sr_seeds b).
(** Without the capacity. *)
Definition srl (a b : seed_result) : Prop := sr_count a = sr_count b /\ op (ar eq) (sr_seeds a) (sr_seeds b).
Definition sor (a b : sort_result) : Prop :=
  op (ar eq) (so_count a) (so_count b) /\ op (ar eq) (so_sv a) (so_sv b) /\ op (ar eq) (so_vi a) (so_vi b) /\ op (ar eq) (so_bi a) (so_bi b).
Definition tcr (a b : type_count) : Prop :=
  tc_sum a = tc_sum b /\ op (ar eq) (tc_size a) (tc_size b) /\ op (ar eq) (tc_store a) (tc_store b) /\ op (ar eq) (tc_groups a) (tc_groups b).
Definition clr (a b : clustering) : Prop :=
  c_version a = c_version b /\ c_n a = c_n b /\ c_k a = c_k b /\ op (ar eq) (c_label a) (c_label b).
Definition esr (a b : estore) : Prop := length (es_nx a) = length (es_nx b) /\ cel eq (es_hd a) (es_hd b) /\ cel eq (es_nx a) (es_nx b).
Definition hsr (a b : hst) : Prop :=
  op (ar eq) (h_p1 a) (h_p1 b) /\ op (ar eq) (h_p2 a) (h_p2 b) /\ op (ar eq) (h_ds a) (h_ds b) /\ op (ar eq) (h_mk a) (h_mk b) /\
  op esr (h_e1 a) (h_e1 b) /\ op esr (h_e2 a) (h_e2 b) /\ op (ar eq) (h_st a) (h_st b).
Definition bsr (a b : bst) : Prop :=
  b_i1 a = b_i1 b /\ b_i2 a = b_i2 b /\ b_l1 a = b_l1 b /\ b_l2 a = b_l2 b /\ op (ar eq) (b_p1 a) (b_p1 b) /\ op (ar eq) (b_p2 a) (b_p2 b) /\
  op esr (b_e1 a) (b_e1 b) /\ op esr (b_e2 a) (b_e2 b) /\ op (ar eq) (b_st a) (b_st b) /\ op (ar eq) (b_mk a) (b_mk b).
Definition skr (a b : hstack) : Prop := s_cap a = s_cap b /\ s_items a = s_items b /\ op (ar eq) (s_cl a) (s_cl b).
Definition rR {A} (Q : A -> A -> Prop) (m1 m2 : R A) : Prop := forall a b, m1 = Ok a -> m2 = Ok b -> Q a b.

Lemma rR_ok {A} (Q : A -> A -> Prop) a b : Q a b -> rR Q (Ok a) (Ok b).
Proof. by intros H x y [= <-] [= <-]. Qed.
Lemma rR_bad1 {A} (Q : A -> A -> Prop) u m : rR Q (Bad u) m.
Proof. by intros x y. Qed.
Lemma rR_bad2 {A} (Q : A -> A -> Prop) u m : rR Q m (Bad u).
Proof. by intros x y. Qed.
Lemma rR_bind {A B} (Q : A -> A -> Prop) (Q' : B -> B -> Prop) m1 m2 k1 k2 :
  rR Q m1 m2 -> (forall a b, Q a b -> rR Q' (k1 a) (k2 b)) -> rR Q' (Rbind m1 k1) (Rbind m2 k2).
Proof. intros Hm Hk x y E1 E2. destruct m1 as [a|]; [|done]. destruct m2 as [b|]; [|done]. simpl in *. eapply Hk; [|done|done]. by apply Hm. Qed.
Lemma rR_mono {A} (Q Q' : A -> A -> Prop) m1 m2 : rR Q m1 m2 -> (forall a b, Q a b -> Q' a b) -> rR Q' m1 m2.
Proof. intros H HQ x y E1 E2. apply HQ. by apply H. Qed.
Lemma rR_forR {S} (Q : S -> S -> Prop) n i s t f g :
  Q s t -> (forall j s t, Q s t -> rR Q (f j s) (g j t)) -> rR Q (forR n i s f) (forR n i t g).
Proof. intros H Hf. revert i s t H. induction n as [|n IH]; intros i s t H; simpl; [by apply rR_ok|]. eapply rR_bind; [by apply Hf|]. intros. by apply IH. Qed.
Lemma rR_for_ptr {S} (Q : S -> S -> Prop) a b s t f g :
  Q s t -> (forall j s t, Q s t -> rR Q (f j s) (g j t)) -> rR Q (for_ptr a b s f) (for_ptr a b t g).
Proof. intros H Hf. unfold for_ptr. destruct (decide _); [apply rR_bad1|]. by apply rR_forR. Qed.
Lemma rR_loopR {S T} (Q : S -> S -> Prop) (Q' : T -> T -> Prop) n i s t f g :
  Q s t -> (forall j s t, Q s t -> rR (sm Q Q') (f j s) (g j t)) -> rR (sm Q Q') (loopR n i s f) (loopR n i t g).
Proof.
  intros H Hf. revert i s t H. induction n as [|n IH]; intros i s t H; simpl; [by apply rR_ok|]. eapply rR_bind; [by apply Hf|].
  intros [a|a] [b|b] Hab; simpl in Hab; try done; [by apply IH|by apply rR_ok].
Qed.
Lemma rR_loop_ptr {S T} (Q : S -> S -> Prop) (Q' : T -> T -> Prop) a b s t f g :
  Q s t -> (forall j s t, Q s t -> rR (sm Q Q') (f j s) (g j t)) -> rR (sm Q Q') (loop_ptr a b s f) (loop_ptr a b t g).
Proof. intros H Hf. unfold loop_ptr. destruct (decide _); [apply rR_bad1|]. by apply rR_loopR. Qed.
Lemma rR_foldR {A S} (QA : A -> A -> Prop) (Q : S -> S -> Prop) f g s t l1 l2 :
  Forall2 QA l1 l2 -> Q s t -> (forall x y s t, QA x y -> Q s t -> rR Q (f x s) (g y t)) -> rR Q (foldR f s l1) (foldR g t l2).
Proof. intros Hl H Hf. revert s t H. induction Hl as [|x y l1 l2 Hx Hl IH]; intros s t H; simpl; [by apply rR_ok|]. eapply rR_bind; [by apply Hf|]. intros. by apply IH. Qed.
Lemma rR_foldR_eq {A S} (Q : S -> S -> Prop) (f g : A -> S -> R S) s t l :
  Q s t -> (forall x s t, Q s t -> rR Q (f x s) (g x t)) -> rR Q (foldR f s l) (foldR g t l).
Proof. intros H Hf. apply (rR_foldR eq); [by induction l; constructor| done|]. by intros x ? s' t' <- ?; apply Hf. Qed.

(** ** Arrays *)

Lemma cel_lookup {A} Q (c d : list (option A)) : cel Q c d -> forall i, rR Q (cget c i) (cget d i).
Proof. intros H i x y E1 E2. apply cget_inv in E1, E2. by eapply H. Qed.
Lemma cel_set {A} (Q : A -> A -> Prop) (c d : list (option A)) i x y : cel Q c d -> Q x y -> rR (cel Q) (cset c i x) (cset d i y).
Proof.
  intros H Hx a b E1 E2. apply cset_inv in E1 as (L1 & ->). apply cset_inv in E2 as (L2 & ->). intros j u v. destruct (decide (i = j)) as [->|].
  - rewrite !list_lookup_insert by done. by intros [= <-] [= <-].
  - rewrite !list_lookup_insert_ne by done. apply H.
Qed.
Lemma cel_fresh1 {A} Q n (c : list (option A)) : cel Q (fresh A n) c.
Proof. intros i x y E. unfold fresh in E. by apply lookup_replicate in E as [? ?]. Qed.
Lemma cel_fresh2 {A} Q n (c : list (option A)) : cel Q c (fresh A n).
Proof. intros i x y _ E. unfold fresh in E. by apply lookup_replicate in E as [? ?]. Qed.
Lemma cel_fill {A} (Q : A -> A -> Prop) n m x y : Q x y -> cel Q (replicate n (Some x)) (replicate m (Some y)).
Proof. intros H i a b E1 E2. apply lookup_replicate in E1 as [[= ->] _]. by apply lookup_replicate in E2 as [[= ->] _]. Qed.
Lemma cel_drop {A} Q (c d : list (option A)) n : cel Q c d -> cel Q (drop n c) (drop n d).
Proof. intros H i x y. rewrite !lookup_drop. apply H. Qed.
Lemma resize_lookup {A} n (c : list (option A)) i x : resize n c !! i = Some (Some x) -> c !! i = Some (Some x).
Proof.
  unfold resize. rewrite lookup_app_Some. intros [H|[_ H]]; [|unfold fresh in H; by apply lookup_replicate in H as [? ?]].
  apply lookup_take_Some in H. tauto.
Qed.
Lemma cel_resize {A} Q (c d : list (option A)) n m : cel Q c d -> cel Q (resize n c) (resize m d).
Proof. intros H i x y E1 E2. eapply H; by eapply resize_lookup. Qed.
Lemma cel_resize1 {A} Q (c d : list (option A)) n : cel Q c d -> cel Q (resize n c) d.
Proof. intros H i x y E1 E2. eapply H; [by eapply resize_lookup|done]. Qed.
Lemma cel_resize2 {A} Q (c d : list (option A)) n : cel Q c d -> cel Q c (resize n d).
Proof. intros H i x y E1 E2. eapply H; [done|by eapply resize_lookup]. Qed.
Lemma cel_out {A} (xs : list A) cap (c d : list (option A)) :
  cel eq c d -> length xs <= cap -> cel eq ((Some <$> xs) ++ fresh A (cap - length xs) ++ drop cap c) ((Some <$> xs) ++ fresh A (cap - length xs) ++ drop cap d).
Proof.
  intros H L i x y. destruct (decide (i < length xs)).
  - rewrite !lookup_app_l by (by rewrite fmap_length). congruence.
  - rewrite !(lookup_app_r (Some <$> xs)) by (rewrite fmap_length; lia). rewrite fmap_length.
    destruct (decide (i - length xs < cap - length xs)).
    + rewrite lookup_app_l by (unfold fresh; by rewrite replicate_length). intros E. unfold fresh in E. by apply lookup_replicate in E as [? ?].
    + rewrite !lookup_app_r by (unfold fresh; rewrite replicate_length; lia). unfold fresh. rewrite !replicate_length. by apply cel_drop.
Qed.

Lemma lo_op {A} (Q : A -> A -> Prop) p q : op (ar Q) p q -> lo Q p q.
Proof. by intros H a b -> ->. Qed.
Lemma rR_aget {A} (Q : A -> A -> Prop) p q i : lo Q p q -> rR Q (aget p i) (aget q i).
Proof. intros H. destruct p as [a|]; [|apply rR_bad1]. destruct q as [b|]; [|apply rR_bad2]. apply cel_lookup. by apply H. Qed.
Lemma rR_aset_lo {A} (Q : A -> A -> Prop) p q i x y : lo Q p q -> Q x y -> rR (op (ar Q)) (aset p i x) (aset q i y).
Proof.
  intros H Hx. destruct p as [a|]; [|apply rR_bad1]. destruct q as [b|]; [|apply rR_bad2]. simpl. eapply rR_bind.
  - apply cel_set; [by apply H|done].
  - intros c d Hcd. by apply rR_ok.
Qed.
Lemma rR_lget {A} (l : list A) i : rR eq (lget l i) (lget l i).
Proof. intros x y E1 E2. congruence. Qed.
Lemma rR_lget2 {A} (Q : A -> A -> Prop) l1 l2 i : Forall2 Q l1 l2 -> rR Q (lget l1 i) (lget l2 i).
Proof. intros H x y E1 E2. apply lget_inv in E1, E2. by eapply Forall2_lookup_lr. Qed.
Lemma rR_refl {A} (m : R A) : rR eq m m.
Proof. intros x y E1 E2. congruence. Qed.
Lemma rR_write_out {A} cap (xs : list A) p q : lo eq p q -> rR (op (ar eq)) (write_out cap xs p) (write_out cap xs q).
Proof.
  intros H. destruct p as [a|]; [|apply rR_bad1]. destruct q as [b|]; [|apply rR_bad2]. simpl.
  destruct (decide _) as [[? ?]|]; [|apply rR_bad1]. destruct (decide _); [|apply rR_bad2]. apply rR_ok. simpl. unfold ar. simpl.
  apply cel_out; [by apply H|done].
Qed.

(** ** Relations by type *)

Class EqT (A : Type) := eqt : True.
Global Instance EqT_nat : EqT nat := I.
Global Instance EqT_bool : EqT bool := I.
Global Instance EqT_Z : EqT Z := I.
Global Instance EqT_unit : EqT unit := I.
Global Instance EqT_ecode : EqT ecode := I.
Global Instance EqT_double : EqT double := I.
Global Instance EqT_lnat : EqT (list nat) := I.
Global Instance EqT_ldouble : EqT (list double) := I.
Global Instance EqT_olnat : EqT (option (list nat)) := I.
Global Instance EqT_oldouble : EqT (option (list double)) := I.
Global Instance EqT_res : EqT (option (list nat * list nat)) := I.
Global Instance EqT_onat : EqT (option nat) := I.
Global Instance EqT_oecode : EqT (option ecode) := I.
Global Instance EqT_um : EqT unassigned_method := I.
Global Instance EqT_sm : EqT seed_method := I.
Global Instance EqT_rm : EqT radius_method := I.
Global Instance EqT_options : EqT options := I.
Global Instance EqT_N : EqT N := I.
Global Instance EqT_hitem : EqT hitem := I.
Global Instance EqT_onn : EqT (option (nat * nat)) := I.
Global Instance EqT_ohh : EqT (option (hitem * hitem)) := I.
Global Instance EqT_maxres : EqT (option (list nat * list double)) := I.
Global Instance EqT_edges : EqT (list (nat * double)) := I.
Global Instance EqT_prod {A B} `{EqT A} `{EqT B} : EqT (A * B) := I.

Class Rel (A : Type) := rel : A -> A -> Prop.
Global Instance Rel_eq {A} `{EqT A} : Rel A | 0 := eq.
Global Instance Rel_prod {A B} `{Rel A} `{Rel B} : Rel (A * B) | 10 := pr rel rel.
Global Instance Rel_sum {A B} `{Rel A} `{Rel B} : Rel (A + B) | 10 := sm rel rel.
Global Instance Rel_cel {A} `{Rel A} : Rel (list (option A)) | 5 := cel rel.
Global Instance Rel_arr {A} `{Rel A} : Rel (arr A) | 5 := ar rel.
Global Instance Rel_op {A} `{Rel A} : Rel (option A) | 10 := op rel.
Global Instance Rel_list {A} `{Rel A} : Rel (list A) | 10 := Forall2 rel.
Global Instance Rel_dg : Rel digraph | 5 := dgr.
Global Instance Rel_sr : Rel seed_result | 5 := srr.
Global Instance Rel_so : Rel sort_result | 5 := sor.
Global Instance Rel_tc : Rel type_count | 5 := tcr.
Global Instance Rel_cl : Rel clustering | 5 := clr.
Global Instance Rel_es : Rel estore | 5 := esr.
Global Instance Rel_hs : Rel hst | 5 := hsr.
Global Instance Rel_bs : Rel bst | 5 := bsr.
Global Instance Rel_sk : Rel hstack | 5 := skr.
(** The search objects of a provider. *)
Class NNRel (A : Type) := nnrel : A -> A -> Prop.
Global Instance Rel_nn {A} `{NNRel A} : Rel A | 1 := nnrel.
(** Radii. *)
Class RadRel := radrel : double -> double -> Prop.
Global Instance Rel_rad `{RadRel} : Rel (option double) | 0 := op radrel.
Global Instance Rel_R {A} `{Rel A} : Rel (R A) | 5 := rR rel.
Global Instance Rel_fun_eq {A B} `{EqT A} `{Rel B} : Rel (A -> B) | 5 := fun f g => forall a, rel (f a) (g a).
Global Instance Rel_fun {A B} `{Rel A} `{Rel B} : Rel (A -> B) | 10 := fun f g => forall a b, rel a b -> rel (f a) (g b).

Ltac relT A := let r := constr:(@rel A _) in
  eval cbv [rel Rel_eq Rel_prod Rel_sum Rel_cel Rel_arr Rel_op Rel_list Rel_dg Rel_sr Rel_so Rel_tc Rel_cl Rel_es Rel_hs Rel_bs Rel_sk Rel_nn nnrel Rel_rad radrel Rel_R] in r.
Ltac is_rel f := let T := eval cbv [rel Rel_eq Rel_prod Rel_sum Rel_cel Rel_arr Rel_op Rel_list Rel_dg Rel_sr Rel_so Rel_tc Rel_cl Rel_es Rel_hs Rel_bs Rel_sk Rel_nn nnrel Rel_rad radrel Rel_R Rel_fun_eq Rel_fun] in (rel f f) in exact T.

Lemma pr_elim {A B} (Q : A -> A -> Prop) (Q' : B -> B -> Prop) a b c d : pr Q Q' (a, b) (c, d) -> Q a c /\ Q' b d.
Proof. done. Qed.
Lemma pr_intro {A B} (Q : A -> A -> Prop) (Q' : B -> B -> Prop) a b c d : Q a c -> Q' b d -> pr Q Q' (a, b) (c, d).
Proof. done. Qed.

(** Take related values apart. *)
Ltac nrm := cbv beta in * |-;
  repeat match goal with
  | H : False |- _ => destruct H
  | H : pr _ _ (_, _) (_, _) |- _ => apply pr_elim in H; destruct H
  | H : pr _ _ ?x ?y |- _ => first [is_var x; destruct x | is_var y; destruct y]
  | H : sm _ _ (inl _) (inl _) |- _ => cbn [sm] in H
  | H : sm _ _ (inr _) (inr _) |- _ => cbn [sm] in H
  | H : sm _ _ (inl _) (inr _) |- _ => destruct H
  | H : sm _ _ (inr _) (inl _) |- _ => destruct H
  | H : op _ (Some _) (Some _) |- _ => cbn [op] in H
  | H : op _ None None |- _ => clear H
  | H : op _ None (Some _) |- _ => destruct H
  | H : op _ (Some _) None |- _ => destruct H
  | H : dgr (DG _ _ _ _) (DG _ _ _ _) |- _ => unfold dgr in H; cbn [dg_n dg_max dg_head dg_tail] in H; destruct H as (? & ? & ? & ?)
  | H : dgr ?x ?y |- _ => first [is_var x; destruct x | is_var y; destruct y]
  | H : srr (SR _ _ _) (SR _ _ _) |- _ => unfold srr in H; cbn [sr_cap sr_count sr_seeds] in H; destruct H as (? & ? & ?)
  | H : srr ?x ?y |- _ => first [is_var x; destruct x | is_var y; destruct y]
  | H : srl (SR _ _ _) (SR _ _ _) |- _ => unfold srl in H; cbn [sr_cap sr_count sr_seeds] in H; destruct H as (? & ?)
  | H : srl ?x ?y |- _ => first [is_var x; destruct x | is_var y; destruct y]
  | H : sor (Sort _ _ _ _) (Sort _ _ _ _) |- _ => unfold sor in H; cbn [so_count so_sv so_vi so_bi] in H; destruct H as (? & ? & ? & ?)
  | H : sor ?x ?y |- _ => first [is_var x; destruct x | is_var y; destruct y]
  | H : tcr (TC _ _ _ _) (TC _ _ _ _) |- _ => unfold tcr in H; cbn [tc_sum tc_size tc_store tc_groups] in H; destruct H as (? & ? & ? & ?)
  | H : tcr ?x ?y |- _ => first [is_var x; destruct x | is_var y; destruct y]
  | H : clr (Clu _ _ _ _ _) (Clu _ _ _ _ _) |- _ => unfold clr in H; cbn [c_version c_n c_k c_label c_ext] in H; destruct H as (? & ? & ? & ?)
  | H : clr ?x ?y |- _ => first [is_var x; destruct x | is_var y; destruct y]
  | H : hsr (HSt _ _ _ _ _ _ _) (HSt _ _ _ _ _ _ _) |- _ => unfold hsr in H; cbn [h_p1 h_p2 h_ds h_mk h_e1 h_e2 h_st] in H; destruct H as (? & ? & ? & ? & ? & ? & ?)
  | H : hsr ?x ?y |- _ => first [is_var x; destruct x | is_var y; destruct y]
  | H : bsr (BSt _ _ _ _ _ _ _ _ _ _) (BSt _ _ _ _ _ _ _ _ _ _) |- _ => unfold bsr in H; cbn [b_i1 b_i2 b_l1 b_l2 b_p1 b_p2 b_e1 b_e2 b_st b_mk] in H; destruct H as (? & ? & ? & ? & ? & ? & ? & ? & ? & ?)
  | H : bsr ?x ?y |- _ => first [is_var x; destruct x | is_var y; destruct y]
  | H : skr (HS _ _ _) (HS _ _ _) |- _ => unfold skr in H; cbn [s_cap s_items s_cl] in H; destruct H as (? & ? & ?)
  | H : skr ?x ?y |- _ => first [is_var x; destruct x | is_var y; destruct y]
  | H : @eq unit ?x ?y |- _ => clear H
  | x : unit |- _ => destruct x
  | H : ?x = ?y |- _ => is_var y; subst y
  | H : ?x = ?y |- _ => is_var x; subst x
  end;
  cbn [dg_n dg_max dg_head dg_tail sr_cap sr_count sr_seeds so_count so_sv so_vi so_bi tc_sum tc_size tc_store tc_groups c_version c_n c_k c_label c_ext h_p1 h_p2 h_ds h_mk h_e1 h_e2 h_st b_i1 b_i2 b_l1 b_l2 b_p1 b_p2 b_e1 b_e2 b_st b_mk s_cap s_items s_cl fst snd set_label set_k].

(** Prove that values are related. *)
Ltac prove_rel :=
  cbv beta iota;
  cbn [dg_n dg_max dg_head dg_tail sr_cap sr_count sr_seeds so_count so_sv so_vi so_bi tc_sum tc_size tc_store tc_groups c_version c_n c_k c_label c_ext h_p1 h_p2 h_ds h_mk h_e1 h_e2 h_st b_i1 b_i2 b_l1 b_l2 b_p1 b_p2 b_e1 b_e2 b_st b_mk s_cap s_items s_cl fst snd set_label set_k];
  match goal with
  | |- _ => assumption
  | |- ?x = ?y => reflexivity
  | |- pr _ _ (_, _) (_, _) => apply pr_intro; prove_rel
  | |- sm _ _ (inl _) (inl _) => cbn [sm]; prove_rel
  | |- sm _ _ (inr _) (inr _) => cbn [sm]; prove_rel
  | |- op _ (Some _) (Some _) => cbn [op]; prove_rel
  | |- op _ None None => exact I
  | |- ar _ (Arr _ _) (Arr _ _) => unfold ar; cbn [a_cells]; prove_rel
  | |- lo _ _ _ => apply lo_op; prove_rel
  | |- dgr _ _ => unfold dg_uninit, dg_null, dgr; cbn [dg_n dg_max dg_head dg_tail]; splits; prove_rel
  | |- srr _ _ => unfold srr; cbn [sr_cap sr_count sr_seeds]; splits; prove_rel
  | |- srl _ _ => unfold srl; cbn [sr_cap sr_count sr_seeds]; splits; prove_rel
  | |- sor _ _ => unfold sor; cbn [so_count so_sv so_vi so_bi]; splits; prove_rel
  | |- tcr _ _ => unfold tcr; cbn [tc_sum tc_size tc_store tc_groups]; splits; prove_rel
  | |- hsr _ _ => unfold hsr; cbn [h_p1 h_p2 h_ds h_mk h_e1 h_e2 h_st]; splits; prove_rel
  | |- bsr _ _ => unfold bsr; cbn [b_i1 b_i2 b_l1 b_l2 b_p1 b_p2 b_e1 b_e2 b_st b_mk]; splits; prove_rel
  | |- skr _ _ => unfold skr; cbn [s_cap s_items s_cl]; splits; prove_rel
  | |- clr _ _ => unfold clr; cbn [c_version c_n c_k c_label c_ext]; splits; prove_rel
  | |- cel _ (fresh _ _) _ => apply cel_fresh1
  | |- cel _ _ (fresh _ _) => apply cel_fresh2
  | |- cel _ (replicate _ _) (replicate _ _) => apply cel_fill; prove_rel
  | |- cel _ (drop _ _) (drop _ _) => apply cel_drop; prove_rel
  | |- cel _ (a_cells ?a) (a_cells ?b) => change (ar eq a b); assumption
  | |- cel _ (a_cells ?a) (a_cells ?b) => match goal with H : ar ?Q a b |- _ => exact H end
  | |- Forall2 _ [] [] => constructor
  | |- Forall2 _ (_ :: _) (_ :: _) => constructor; prove_rel
  | |- Forall2 _ (_ ++ _) (_ ++ _) => apply Forall2_app; prove_rel
  | |- op _ (acells (match ?p with _ => _ end)) (acells (match ?q with _ => _ end)) => match goal with H : op _ p q |- _ => destruct p, q; cbn [op] in H; lazymatch type of H with False => destruct H | _ => prove_rel end end
  | |- op _ (acells ?p) (acells ?q) => match goal with H : op (ar _) p q |- _ => destruct p, q; cbn [op] in H; lazymatch type of H with False => destruct H | _ => unfold acells; prove_rel end end
  | |- op _ (match ?p with _ => _ end) (match ?q with _ => _ end) =>
      first [constr_eq p q; destruct p; prove_rel | match goal with H : op _ p q |- _ => destruct p, q; cbn [op] in H; lazymatch type of H with False => destruct H | _ => prove_rel end end]
  | |- op _ (seedable_cells _ _ _) (seedable_cells _ _ _) => unfold seedable_cells; prove_rel
  | |- op _ (ucells ?p) (ucells ?p) => destruct p; unfold ucells; prove_rel
  | |- cel eq ?c ?c => unfold cel; congruence
  | |- _ (match ?x with _ => _ end) (match ?x with _ => _ end) => destruct x; prove_rel
  end.

(** Split a condition. *)
Ltac opts := repeat match goal with
  | H : op _ ?p ?q |- context [?p = None] => is_var p; is_var q; destruct p, q; cbn [op] in H; try destruct H
  | H : op _ ?p ?q |- context [is_Some ?p] => is_var p; is_var q; destruct p, q; cbn [op] in H; try destruct H
  end.
Lemma if_iff {P1 P2 : Prop} `{Decision P1, Decision P2} {A B} (Q : A -> B -> Prop) a1 b1 a2 b2 : (P1 <-> P2) ->
  (P1 -> Q a1 a2) -> (~ P1 -> Q b1 b2) -> Q (if decide P1 then a1 else b1) (if decide P2 then a2 else b2).
Proof. intros E H1 H2. destruct (decide P1), (decide P2); auto; tauto. Qed.
Ltac iffp := first [tauto | split; intros; intuition congruence | split; (intros [?|?]; solve [left; by eexists | right; by eexists | left; assumption])].
Ltac scrut x y :=
  first
  [ match x with match ?x' with _ => _ end => match y with match ?y' with _ => _ end => scrut x' y' end end
  | constr_eq x y; destruct x; nrm
  | match goal with H : op _ x y |- _ => destruct x, y; cbn [op] in H; try (destruct H; fail); nrm end
  | match goal with H : sm _ _ x y |- _ => destruct x, y; cbn [sm] in H; try (destruct H; fail); nrm end ].

Create HintDb rr.
Ltac rr_hint := solve [eauto 2 with rr nocore].
Ltac rr_step :=
  match goal with
  | |- forall _, _ => intro; nrm
  | |- rR _ (let x := _ in _) _ => cbv zeta
  | |- rR _ (Bad _) _ => apply rR_bad1
  | |- rR _ _ (Bad _) => apply rR_bad2
  | |- rR _ (Ok _) (Ok _) => apply rR_ok; prove_rel
  | |- rR _ (@Rbind ?A _ _ _) (Rbind _ _) => let Q := relT A in apply (rR_bind Q); [|intros ? ? ?; nrm]
  | |- rR _ (forR _ _ _ _) (forR _ _ _ _) => apply rR_forR; [prove_rel|intros ? ? ? ?; nrm]
  | |- rR _ (for_ptr _ _ _ _) (for_ptr _ _ _ _) => apply rR_for_ptr; [prove_rel|intros ? ? ? ?; nrm]
  | |- rR _ (loopR _ _ _ _) (loopR _ _ _ _) => apply rR_loopR; [prove_rel|intros ? ? ? ?; nrm]
  | |- rR _ (loop_ptr _ _ _ _) (loop_ptr _ _ _ _) => apply rR_loop_ptr; [prove_rel|intros ? ? ? ?; nrm]
  | |- rR _ (foldR _ _ ?l) (foldR _ _ ?l) => apply rR_foldR_eq; [prove_rel|intros ? ? ? ?; nrm]
  | |- rR _ (foldR _ _ _) (foldR _ _ _) => eapply rR_foldR; [eassumption|prove_rel|intros ? ? ? ? ? ?; nrm]
  | |- rR eq ?x ?x => apply rR_refl
  | |- rR _ _ _ => rr_hint
  | |- rR _ (match ?x with _ => _ end) (match ?y with _ => _ end) => scrut x y
  | |- rR _ (match decide _ with _ => _ end) (match decide _ with _ => _ end) => opts; (apply if_iff; [iffp|intros _; nrm|intros _; nrm])
  end.
Ltac rr_all := repeat rr_step.
Global Hint Extern 1 (op _ _ _) => prove_rel : rr.
Global Hint Extern 1 (lo _ _ _) => prove_rel : rr.
Global Hint Extern 1 (cel _ _ _) => prove_rel : rr.
Global Hint Extern 1 (ar _ _ _) => prove_rel : rr.
Global Hint Extern 1 (pr _ _ _ _) => prove_rel : rr.
Global Hint Extern 1 (dgr _ _) => prove_rel : rr.
Global Hint Extern 1 (srr _ _) => prove_rel : rr.
Global Hint Extern 1 (srl _ _) => prove_rel : rr.
Global Hint Extern 1 (sor _ _) => prove_rel : rr.
Global Hint Extern 1 (tcr _ _) => prove_rel : rr.
Global Hint Extern 1 (clr _ _) => prove_rel : rr.
Global Hint Extern 1 (hsr _ _) => prove_rel : rr.
Global Hint Extern 1 (bsr _ _) => prove_rel : rr.
Global Hint Extern 1 (skr _ _) => prove_rel : rr.
Global Hint Extern 1 (Forall2 _ _ _) => prove_rel : rr.
Global Hint Extern 1 (_ = _) => reflexivity : rr.
Global Hint Resolve rR_aget rR_aset_lo cel_lookup cel_set rR_lget rR_lget2 rR_write_out : rr.

(** ** Functions without effects *)

Lemma rr_for_arcs {S} (Q : S -> S -> Prop) g h v s t f f' :
  dgr g h -> Q s t -> (forall x s t, Q s t -> rR Q (f x s) (f' x t)) -> rR Q (for_arcs g v s f) (for_arcs h v t f').
Proof.
  intros Hg H Hf. nrm. unfold for_arcs. nrm. rr_step; [rr_step|]. rr_step; [rr_step|]. rr_step. rr_step; [rr_step|]. by apply Hf.
Qed.
Lemma rr_loop_arcs {S T} (Q : S -> S -> Prop) (Q' : T -> T -> Prop) g h v s t f f' :
  dgr g h -> Q s t -> (forall x s t, Q s t -> rR (sm Q Q') (f x s) (f' x t)) -> rR (sm Q Q') (loop_arcs g v s f) (loop_arcs h v t f').
Proof.
  intros Hg H Hf. nrm. unfold loop_arcs. nrm. rr_step; [rr_step|]. rr_step; [rr_step|]. rr_step. rr_step; [rr_step|]. by apply Hf.
Qed.
Ltac rr_arcs :=
  match goal with
  | |- rR _ (for_arcs _ _ _ _) (for_arcs _ _ _ _) => apply rr_for_arcs; [prove_rel|prove_rel|intros ? ? ? ?; nrm]
  | |- rR _ (loop_arcs _ _ _ _) (loop_arcs _ _ _ _) => apply rr_loop_arcs; [prove_rel|prove_rel|intros ? ? ? ?; nrm]
  end.
Ltac rr_go := repeat first [rr_arcs | rr_step].

Ltac bindQ Q := apply (rR_bind Q); [|intros ? ? ?; nrm].
Ltac ins := repeat match goal with |- forall _, _ => intro end; nrm.

Lemma rr_digraph_is_empty : ltac:(is_rel digraph_is_empty).
Proof. ins. unfold digraph_is_empty. nrm. rr_go. Qed.
Global Hint Resolve rr_digraph_is_empty : rr.
Lemma rr_reset_markers : ltac:(is_rel reset_markers).
Proof. ins. unfold reset_markers. nrm. rr_go. Qed.
Global Hint Resolve rr_reset_markers : rr.
Lemma rr_mark_count : ltac:(is_rel mark_count).
Proof. ins. unfold mark_count. nrm. rr_go. Qed.
Global Hint Resolve rr_mark_count : rr.
Definition lox (hp hq : Prop) (p q : option (arr nat)) : Prop := lo eq p q /\ (is_Some p <-> hp) /\ (is_Some q <-> hq).
Lemma rR_aset_lox hp hq p q i x : lox hp hq p q -> rR (lox hp hq) (aset p i x) (aset q i x).
Proof.
  intros (H & H1 & H2) a b E1 E2. pose proof (rR_aset_lo _ _ _ i x x H eq_refl _ _ E1 E2) as Hab. split; [by apply lo_op|].
  assert (is_Some p /\ is_Some q /\ is_Some a /\ is_Some b) as (? & ? & ? & ?); [|tauto].
  destruct p as [p|]; [|done]. destruct q as [q|]; [|done]. unfold aset in E1, E2. destruct (cset (a_cells p) i x); [|discriminate E1]. destruct (cset (a_cells q) i x); [|discriminate E2].
  simpl in *. injection E1 as <-. injection E2 as <-. eauto.
Qed.
Lemma rr_mark_write hp hq v x : forall s t : list (option (option nat)) * nat * option (arr nat), pr (pr (cel eq) eq) (lox hp hq) s t -> rR (pr (pr (cel eq) eq) (lox hp hq)) (mark_write v x s) (mark_write v x t).
Proof. ins. unfold mark_write. rr_step; [rr_step|]. rr_step; [|rr_go]. rr_step; [rr_step|]. bindQ (lox hp hq); [by apply rR_aset_lox|rr_go].
Qed.
Global Hint Resolve rr_mark_write : rr.
Lemma rr_do_union_count : ltac:(is_rel do_union_count).
Proof. ins. unfold do_union_count. nrm. rr_go.
Qed.
Global Hint Resolve rr_do_union_count : rr.
Section Pure.
Context (cfg : config).
Lemma rr_do_union_write hp hq dgs dgs' mk mk' ts ks ot ot' oh oh' : Forall2 dgr dgs dgs' -> cel eq mk mk' -> op (ar eq) ot ot' -> lox hp hq oh oh' ->
  rR (pr (pr eq (op (ar eq))) (lox hp hq)) (do_union_write cfg dgs mk ts ks ot oh) (do_union_write cfg dgs' mk' ts ks ot' oh').
Proof.
  ins. unfold do_union_write. nrm. rr_step; [rr_step|]. rr_step; [rr_step|]. rr_step; [rr_step|]. destruct ts.
  - bindQ (pr (pr (pr (pr (cel (@eq (option nat))) (@eq nat)) (lox hp hq)) (op (ar (@eq nat)))) (@eq (list nat))); [|rr_go].
    rr_step. destruct l0; [rr_go|]. destruct (decide _); [|rr_go].
    bindQ (pr (pr (cel (@eq (option nat))) (@eq nat)) (lox hp hq)); [rr_go|rr_go].
  - bindQ (pr (pr (pr (cel (@eq (option nat))) (@eq nat)) (lox hp hq)) (op (ar (@eq nat)))); [|rr_go].
    rr_step. bindQ (pr (pr (cel (@eq (option nat))) (@eq nat)) (lox hp hq)); [rr_go|rr_go].
Qed.
Lemma rr_do_product_count : ltac:(is_rel do_product_count).
Proof. ins. unfold do_product_count. nrm. rr_go.
Qed.
Hint Resolve rr_do_union_write rr_do_product_count : rr.
Lemma rr_do_product_write hp hq a a' b b' mk mk' fl ot ot' oh oh' : dgr a a' -> dgr b b' -> cel eq mk mk' -> op (ar eq) ot ot' -> lox hp hq oh oh' ->
  rR (pr (pr eq (op (ar eq))) (lox hp hq)) (do_product_write cfg a b mk fl ot oh) (do_product_write cfg a' b' mk' fl ot' oh').
Proof.
  ins. unfold do_product_write. nrm. rr_step; [rr_step|]. rr_step; [rr_step|].
  bindQ (pr (pr (pr (cel (@eq (option nat))) (@eq nat)) (lox hp hq)) (op (ar (@eq nat)))); [|rr_go].
  rr_step. rr_step; [rr_step|].
  bindQ (pr (pr (cel (@eq (option nat))) (@eq nat)) (lox hp hq)); [rr_go|].
  bindQ (pr (pr (cel (@eq (option nat))) (@eq nat)) (lox hp hq)); [rr_go|rr_go].
Qed.
Hint Resolve rr_do_product_write : rr.
Lemma rr_copy_prev : ltac:(is_rel copy_prev).
Proof. ins. unfold copy_prev. nrm. rr_go.
Qed.
Hint Resolve rr_copy_prev : rr.
Lemma rr_write_tails : ltac:(is_rel write_tails).
Proof. ins. unfold write_tails. nrm. rr_go.
Qed.
Hint Resolve rr_write_tails : rr.
Lemma rr_self_match_one : ltac:(is_rel self_match_one).
Proof. ins. unfold self_match_one. nrm. rr_go.
Qed.
Hint Resolve rr_self_match_one : rr.
Lemma rr_ensure_self_match : ltac:(is_rel ensure_self_match).
Proof. ins. unfold ensure_self_match. nrm. rr_go.
Qed.
Hint Resolve rr_ensure_self_match : rr.
Lemma rr_get_run a b lo cnt : op (ar eq) a b -> rR eq (get_run a lo cnt) (get_run b lo cnt).
Proof. intros H. revert lo. induction cnt as [|cnt IH]; intros lo; simpl; rr_go; eauto.
Qed.
Lemma rr_put_run l : forall a b lo, op (ar eq) a b -> rR (op (ar eq)) (put_run a lo l) (put_run b lo l).
Proof. induction l as [|x l IH]; intros a b lo H; simpl; [by apply rR_ok|]. rr_step; [rr_step|]. by apply IH.
Qed.
Hint Resolve rr_get_run rr_put_run : rr.
Lemma rr_qsort_run : ltac:(is_rel qsort_run).
Proof. ins. unfold qsort_run. nrm. rr_go.
Qed.
Hint Resolve rr_qsort_run : rr.
Lemma rr_sort_nng : ltac:(is_rel sort_nng).
Proof. ins. unfold sort_nng. nrm. rr_go.
Qed.
Hint Resolve rr_sort_nng : rr.
Lemma rr_read_idx : ltac:(is_rel read_idx).
Proof. ins. unfold read_idx. nrm. rr_go.
Qed.
Hint Resolve rr_read_idx : rr.
Lemma rr_read_dgs : ltac:(is_rel read_dgs).
Proof. ins. unfold read_dgs. nrm. rr_go.
Qed.
Hint Resolve rr_read_dgs : rr.
Lemma rr_collect_unassigned lab lab' len h ta ta' : op (ar eq) lab lab' -> op (ar eq) ta ta' ->
  rR (pr (op (ar eq)) eq) (collect_unassigned cfg lab len h ta) (collect_unassigned cfg lab' len h ta').
Proof. ins. unfold collect_unassigned. nrm. rr_go.
Qed.
Hint Resolve rr_collect_unassigned : rr.
Lemma rr_assign_seeds_and_neighbors a b s t g h : clr a b -> srl s t -> dgr g h -> rR (pr clr eq) (assign_seeds_and_neighbors cfg a s g) (assign_seeds_and_neighbors cfg b t h).
Proof. ins. unfold assign_seeds_and_neighbors. nrm. rr_go.
Qed.
Hint Resolve rr_assign_seeds_and_neighbors : rr.
Lemma rr_check_neighbors_marks : ltac:(is_rel (check_neighbors_marks)).
Proof. ins. unfold check_neighbors_marks. nrm. rr_go.
Qed.
Hint Resolve rr_check_neighbors_marks : rr.
Lemma rr_mark_seed_neighbors : ltac:(is_rel (mark_seed_neighbors)).
Proof. ins. unfold mark_seed_neighbors. nrm. rr_go.
Qed.
Hint Resolve rr_mark_seed_neighbors : rr.
Lemma rr_bucket_shift start t pos : forall sv sv' vi vi', op (ar eq) sv sv' -> op (ar eq) vi vi' ->
  rR (pr (pr eq (op (ar eq))) (op (ar eq))) (bucket_shift start t pos sv vi) (bucket_shift start t pos sv' vi').
Proof.
  induction pos as [|p IH]; intros sv sv' vi vi' H1 H2; simpl; destruct (decide _); try (by apply rR_ok); try apply rR_bad1.
  rr_go.
Qed.
Hint Resolve rr_bucket_shift : rr.
Lemma rr_bucket_sort : ltac:(is_rel (bucket_sort)).
Proof. ins. unfold bucket_sort. nrm. rr_go.
Qed.
Hint Resolve rr_bucket_sort : rr.
Lemma rr_sort_buckets : ltac:(is_rel (sort_buckets)).
Proof. ins. unfold sort_buckets. nrm. rr_go.
Qed.
Hint Resolve rr_sort_buckets : rr.
Lemma rr_decrease_v_in_sort : ltac:(is_rel (decrease_v_in_sort cfg)).
Proof. ins. unfold decrease_v_in_sort. nrm. rr_go.
Qed.
Hint Resolve rr_decrease_v_in_sort : rr.
Lemma rr_can_decrease : ltac:(is_rel (can_decrease)).
Proof. ins. unfold can_decrease. nrm. rr_go.
Qed.
Hint Resolve rr_can_decrease : rr.
Lemma rr_inwards_update_seed : ltac:(is_rel (inwards_update_seed cfg)).
Proof. ins. unfold inwards_update_seed. nrm. rr_go.
Qed.
Hint Resolve rr_inwards_update_seed : rr.
Lemma rr_inwards_update_skip : ltac:(is_rel (inwards_update_skip cfg)).
Proof. ins. unfold inwards_update_skip. nrm. rr_go.
Qed.
Hint Resolve rr_inwards_update_skip : rr.
Lemma rr_exclusion_decrease : ltac:(is_rel (exclusion_decrease cfg)).
Proof. ins. unfold exclusion_decrease. nrm. rr_go.
Qed.
Hint Resolve rr_exclusion_decrease : rr.
Lemma rr_exclusion_collect : ltac:(is_rel (exclusion_collect)).
Proof. ins. unfold exclusion_collect. nrm. rr_go.
Qed.
Hint Resolve rr_exclusion_collect : rr.
Lemma rr_collect_batch : ltac:(is_rel (collect_batch cfg)).
Proof. ins. unfold collect_batch. nrm. rr_go.
Qed.
Hint Resolve rr_collect_batch : rr.
Lemma rr_first_assigned : ltac:(is_rel (first_assigned)).
Proof. ins. unfold first_assigned. nrm. rr_go.
Qed.
Hint Resolve rr_first_assigned : rr.
Lemma rr_assign_to : ltac:(is_rel (assign_to)).
Proof. ins. unfold assign_to. nrm. rr_go.
Qed.
Hint Resolve rr_assign_to : rr.
Lemma rr_batch_point : ltac:(is_rel (batch_point cfg)).
Proof. ins. unfold batch_point. nrm. rr_go.
Qed.
Hint Resolve rr_batch_point : rr.
Lemma rr_sort_blocks : ltac:(is_rel (sort_blocks)).
Proof. ins. unfold sort_blocks. nrm. rr_go.
Qed.
Hint Resolve rr_sort_blocks : rr.

(** *** Hierarchical clustering: functions without effects *)

Lemma rr_eget e f i : op esr e f -> rR eq (eget e i) (eget f i).
Proof. intros H. destruct e, f; try done. destruct H as (_ & H & _). by apply cel_lookup. Qed.
Lemma rr_enext e f i : op esr e f -> rR eq (enext e i) (enext f i).
Proof. intros H. destruct e, f; try done. destruct H as (_ & _ & H). by apply cel_lookup. Qed.
Lemma rr_eset_next e f i q : op esr e f -> rR (op esr) (eset_next e i q) (eset_next f i q).
Proof.
  intros H a b E1 E2. destruct e as [e|], f as [f|]; try done. destruct H as (L & H1 & H2). unfold eset_next in *.
  destruct (cset (es_nx e) i q) as [c|] eqn:C1; [|done]. destruct (cset (es_nx f) i q) as [d|] eqn:C2; [|done]. injection E1 as <-. injection E2 as <-.
  split; [|split; [done|]]; cbn [es_nx]; [apply cset_inv in C1 as (_ & ->); apply cset_inv in C2 as (_ & ->); by rewrite !insert_length|].
  exact (cel_set eq _ _ i q q H2 eq_refl _ _ C1 C2).
Qed.
Lemma rr_eset e f i x : op esr e f -> rR (op esr) (eset e i x) (eset f i x).
Proof.
  intros H a b E1 E2. destruct e as [e|], f as [f|]; try done. destruct H as (L & H1 & H2). unfold eset in *.
  destruct (cset (es_hd e) i x) as [c|] eqn:C1; [|done]. destruct (cset (es_hd f) i x) as [d|] eqn:C2; [|done]. injection E1 as <-. injection E2 as <-.
  split; [done|]. split; [|done]. exact (cel_set eq _ _ i x x H1 eq_refl _ _ C1 C2).
Qed.
Lemma es_fuel_same e f : op esr e f -> es_fuel e = es_fuel f.
Proof. intros H. destruct e, f; try done. destruct H as (L & _). simpl. by rewrite L. Qed.
Hint Resolve rr_eget rr_enext rr_eset_next rr_eset : rr.
Lemma rr_next_marker : ltac:(is_rel (next_marker cfg)).
Proof. ins. unfold next_marker. nrm. rr_go. Qed.
Hint Resolve rr_next_marker : rr.
Lemma rr_next_dist fuel : forall e f prev mk mk' cm, op esr e f -> op (ar eq) mk mk' -> rR (pr eq (op esr)) (next_dist fuel e prev mk cm) (next_dist fuel f prev mk' cm).
Proof. induction fuel as [|fuel IH]; intros e f prev mk mk' cm He Hm; simpl; [apply rR_bad1|]. rr_go. Qed.
Lemma rr_next_dist_f e f prev mk mk' cm : op esr e f -> op (ar eq) mk mk' -> rR (pr eq (op esr)) (next_dist (es_fuel e) e prev mk cm) (next_dist (es_fuel f) f prev mk' cm).
Proof. intros He Hm. rewrite (es_fuel_same e f He). by apply rr_next_dist. Qed.
Hint Resolve rr_next_dist_f : rr.
Lemma rr_next_k_nn : ltac:(is_rel next_k_nn).
Proof. ins. unfold next_k_nn. nrm. rr_go. Qed.
Hint Resolve rr_next_k_nn : rr.
Lemma rr_move_point1 : ltac:(is_rel move_point1).
Proof. ins. unfold move_point1. nrm. rr_go. Qed.
Lemma rr_move_point2 : ltac:(is_rel move_point2).
Proof. ins. unfold move_point2. nrm. rr_go. Qed.
Hint Resolve rr_move_point1 rr_move_point2 : rr.
Lemma rr_move_array1 : ltac:(is_rel move_array1).
Proof. ins. unfold move_array1. nrm. rr_go. Qed.
Lemma rr_move_array2 : ltac:(is_rel move_array2).
Proof. ins. unfold move_array2. nrm. rr_go. Qed.
Hint Resolve rr_move_array1 rr_move_array2 : rr.
Lemma rr_center_step : ltac:(is_rel center_step).
Proof. ins. unfold center_step. nrm. rr_go. Qed.
Hint Resolve rr_center_step : rr.
Lemma rr_first_assign : ltac:(is_rel first_assign).
Proof. ins. unfold first_assign. nrm. rr_go. Qed.
Hint Resolve rr_first_assign : rr.
Lemma rr_batch_step : ltac:(is_rel batch_step).
Proof. ins. unfold batch_step. nrm. rr_go. Qed.
Hint Resolve rr_batch_step : rr.
Lemma rr_single_step : ltac:(is_rel single_step).
Proof. ins. unfold single_step. nrm. rr_go. Qed.
Hint Resolve rr_single_step : rr.
Lemma rr_divide : ltac:(is_rel (divide cfg)).
Proof. ins. unfold divide. nrm. rr_go. Qed.
Hint Resolve rr_divide : rr.

(** ** Functions with effects *)

(** [f1], [f2]: allocations may fail in the first run, in the second. *)
Context (f1 f2 : bool).
Definition inv (f : bool) (w : world) : Prop := f = true \/ no_fail w.
(** The results agree, unless one of them is in [X] after a failed allocation. *)
Definition rM {A} (X : A -> Prop) (Q : A -> A -> Prop) (m1 m2 : M A) : Prop := forall w1 w2 a1 w1' a2 w2',
  inv f1 w1 -> inv f2 w2 -> m1 w1 = Ok (a1, w1') -> m2 w2 = Ok (a2, w2') ->
  (inv f1 w1' /\ inv f2 w2' /\ Q a1 a2) \/ (f1 = true /\ X a1) \/ (f2 = true /\ X a2).

Lemma rM_ret {A} (X : A -> Prop) (Q : A -> A -> Prop) a b : Q a b -> rM X Q (Mret a) (Mret b).
Proof. intros H w1 w2 a1 w1' a2 w2' I1 I2 [= <- <-] [= <- <-]. auto. Qed.
Lemma rM_bad1 {A} (X : A -> Prop) Q u m : rM X Q (Mbad u) m.
Proof. by intros w1 w2 a1 w1' a2 w2' I1 I2. Qed.
Lemma rM_bad2 {A} (X : A -> Prop) Q u m : rM X Q m (Mbad u).
Proof. by intros w1 w2 a1 w1' a2 w2' I1 I2. Qed.
Lemma rM_bind {A B} (Y : A -> Prop) (Q : A -> A -> Prop) (X : B -> Prop) Q' m1 m2 k1 k2 :
  rM Y Q m1 m2 -> (forall a b, Q a b -> rM X Q' (k1 a) (k2 b)) ->
  (f1 = true -> forall a, Y a -> resM X (k1 a)) -> (f2 = true -> forall a, Y a -> resM X (k2 a)) -> rM X Q' (Mbind m1 k1) (Mbind m2 k2).
Proof.
  intros Hm Hk H1 H2 w1 w2 b1 w1' b2 w2' I1 I2 E1 E2. unfold Mbind in *. destruct (m1 w1) as [[a1 v1]|] eqn:F1; [|done]. destruct (m2 w2) as [[a2 v2]|] eqn:F2; [|done].
  destruct (Hm _ _ _ _ _ _ I1 I2 F1 F2) as [(J1 & J2 & HQ)|[[Hfl Hy]|[Hfl Hy]]].
  - exact (Hk _ _ HQ _ _ _ _ _ _ J1 J2 E1 E2).
  - right. left. split; [done|]. exact (H1 Hfl _ Hy _ _ _ E1).
  - right. right. split; [done|]. exact (H2 Hfl _ Hy _ _ _ E2).
Qed.
Lemma rM_lift {A B} (Q : A -> A -> Prop) (X : B -> Prop) Q' m1 m2 k1 k2 :
  rR Q m1 m2 -> (forall a b, Q a b -> rM X Q' (k1 a) (k2 b)) -> rM X Q' (Mbind (lift m1) k1) (Mbind (lift m2) k2).
Proof.
  intros Hm Hk w1 w2 b1 w1' b2 w2' I1 I2 E1 E2. unfold Mbind, lift in *. destruct m1 as [a1|]; [|done]. destruct m2 as [a2|]; [|done]. refine (Hk _ _ _ _ _ _ _ _ _ I1 I2 E1 E2). by apply Hm.
Qed.
Lemma rM_lift0 {A} (X : A -> Prop) (Q : A -> A -> Prop) m1 m2 : rR Q m1 m2 -> rM X Q (lift m1) (lift m2).
Proof.
  intros Hm w1 w2 b1 w1' b2 w2' I1 I2 E1 E2. unfold lift in *. destruct m1 as [a1|]; [|done]. destruct m2 as [a2|]; [|done]. injection E1 as <- <-. injection E2 as <- <-. left. auto.
Qed.
Lemma rM_assoc {A B C} (X : C -> Prop) Q (m m' : M A) (k k' : A -> M B) (h h' : B -> M C) :
  rM X Q (Mbind m (fun a => Mbind (k a) h)) (Mbind m' (fun a => Mbind (k' a) h')) -> rM X Q (Mbind (Mbind m k) h) (Mbind (Mbind m' k') h').
Proof.
  intros H w1 w2 b1 w1' b2 w2' I1 I2 E1 E2. apply (H w1 w2 b1 w1' b2 w2' I1 I2); unfold Mbind in *; [by destruct (m w1) as [[? ?]|]|by destruct (m' w2) as [[? ?]|]].
Qed.
Lemma rM_unassoc {A B C} (X : C -> Prop) Q (m m' : M A) (k k' : A -> M B) (h h' : B -> M C) :
  rM X Q (Mbind (Mbind m k) h) (Mbind (Mbind m' k') h') -> rM X Q (Mbind m (fun a => Mbind (k a) h)) (Mbind m' (fun a => Mbind (k' a) h')).
Proof.
  intros H w1 w2 b1 w1' b2 w2' I1 I2 E1 E2. apply (H w1 w2 b1 w1' b2 w2' I1 I2); unfold Mbind in *; [by destruct (m w1) as [[? ?]|]|by destruct (m' w2) as [[? ?]|]].
Qed.
Lemma rM_retl {A B} (X : B -> Prop) Q (a b : A) (k k' : A -> M B) : rM X Q (k a) (k' b) -> rM X Q (Mbind (Mret a) k) (Mbind (Mret b) k').
Proof. done. Qed.
Lemma rM_mono {A} (X Y : A -> Prop) (Q Q' : A -> A -> Prop) m1 m2 : rM X Q m1 m2 -> (forall a, X a -> Y a) -> (forall a b, Q a b -> Q' a b) -> rM Y Q' m1 m2.
Proof.
  intros H HX HQ w1 w2 b1 w1' b2 w2' I1 I2 E1 E2. destruct (H _ _ _ _ _ _ I1 I2 E1 E2) as [(?&?&?)|[[? ?]|[? ?]]]; [left|right; left|right; right]; auto.
Qed.
Lemma rM_loop {S T} (X : T -> Prop) (Q : S -> S -> Prop) (Q' : T -> T -> Prop) n i s t (f g : nat -> S -> M (S + T)) :
  Q s t -> (forall j s t, Q s t -> rM (leaves X) (sm Q Q') (f j s) (g j t)) -> rM (leaves X) (sm Q Q') (loopM n i s f) (loopM n i t g).
Proof.
  intros H Hf. revert i s t H. unfold loopM. induction n as [|n IH]; intros i s t H w1 w2 a1 w1' a2 w2' I1 I2 E1 E2; simpl in E1, E2.
  - injection E1 as <- <-. injection E2 as <- <-. left. auto.
  - destruct (f i s w1) as [[r1 v1]|] eqn:F1; simpl in E1; [|done]. destruct (g i t w2) as [[r2 v2]|] eqn:F2; simpl in E2; [|by destruct r1].
    destruct (Hf _ _ _ H _ _ _ _ _ _ I1 I2 F1 F2) as [(J1 & J2 & HQ)|Hx].
    + destruct r1 as [s1|t1], r2 as [s2|t2]; simpl in HQ; try done.
      * exact (IH (Datatypes.S i) s1 s2 HQ v1 v2 a1 w1' a2 w2' J1 J2 E1 E2).
      * injection E1 as <- <-. injection E2 as <- <-. left. auto.
    + right. destruct r1 as [s1|t1], r2 as [s2|t2]; simpl in Hx; destruct Hx as [[Hf' Hx]|[Hf' Hx]]; try done;
      simpl in E1, E2; try (injection E1 as <- <-); try (injection E2 as <- <-); auto.
Qed.
Lemma rM_for_free {S} n i (s t : S) (f g : nat -> S -> M S) : (forall j s t, rM (fun _ => False) (fun _ _ => True) (f j s) (g j t)) ->
  rM (fun _ => False) (fun _ _ => True) (forM n i s f) (forM n i t g).
Proof.
  intros Hf. revert i s t. unfold forM. induction n as [|n IH]; intros i s t w1 w2 a1 w1' a2 w2' I1 I2 E1 E2; simpl in E1, E2.
  - injection E1 as <- <-. injection E2 as <- <-. left. auto.
  - destruct (f i s w1) as [[r1 v1]|] eqn:F1; simpl in E1; [|done]. destruct (g i t w2) as [[r2 v2]|] eqn:F2; simpl in E2; [|done].
    destruct (Hf _ _ _ _ _ _ _ _ _ I1 I2 F1 F2) as [(J1 & J2 & _)|[[_ []]|[_ []]]]. by apply (IH _ _ _ _ _ _ _ _ _ J1 J2 E1 E2).
Qed.

Notation never := (fun _ => False).
Notation any := (fun _ _ => True).
Lemma inv_wle f w w' : inv f w -> wle w w' -> inv f w'.
Proof. intros [?|?] ?; [by left|right]. by eapply no_fail_wle. Qed.
Lemma rM_keep {A} (m1 m2 : M A) : (forall w a w', m1 w = Ok (a, w') -> wle w w') -> (forall w a w', m2 w = Ok (a, w') -> wle w w') -> rM never any m1 m2.
Proof.
  intros H1 H2 w1 w2 a1 w1' a2 w2' I1 I2 E1 E2. left. splits; [eapply inv_wle; [exact I1|by eapply H1]|eapply inv_wle; [exact I2|by eapply H2]|done].
Qed.
Lemma wle_free p w (a : unit) w' : free p w = Ok (a, w') -> wle w w'.
Proof.
  unfold free. destruct p as [b|]; [|intros [= <- <-]; apply wle_refl]. destruct (decide _); [|done]. intros [= <- <-]. by split.
Qed.
Lemma rM_free_arr {A} (p q : option (arr A)) : rM never any (free_arr p) (free_arr q).
Proof. apply rM_keep; intros w a w'; apply wle_free. Qed.
Lemma rM_set_err e : rM never any (set_err e) (set_err e).
Proof. apply rM_keep; intros w a w' [= <- <-]; by split. Qed.
Lemma rM_reset : rM never any reset_error reset_error.
Proof. apply rM_set_err. Qed.
Lemma rM_make_error__ ec s f l : rM never (fun a b => a = ec /\ b = ec) (make_error__ ec s f l) (make_error__ ec s f l).
Proof. unfold make_error__. eapply rM_bind; [apply rM_set_err|intros; by apply rM_ret|done|done]. Qed.
Lemma rM_make_error ec f l : rM never (fun a b => a = ec /\ b = ec) (make_error ec f l) (make_error ec f l).
Proof. apply rM_make_error__. Qed.
Lemma rM_make_error_msg ec s f l : rM never (fun a b => a = ec /\ b = ec) (make_error_msg ec s f l) (make_error_msg ec s f l).
Proof. apply rM_make_error__. Qed.
Lemma malloc_run f n w r w' : malloc n w = Ok (r, w') -> wle w w' /\ (inv f w -> r <> None \/ f = true).
Proof.
  unfold malloc. destruct (w_fail w (w_next w)) eqn:E; intros [= <- <-]; (split; [split; simpl; auto|]).
  - intros [?|H]; [by right|]. rewrite (H (w_next w)) in E by lia. done.
  - by left.
Qed.
Lemma rM_malloc n m : rM (fun r => r = None) (op any) (malloc n) (malloc m).
Proof.
  intros w1 w2 a1 w1' a2 w2' I1 I2 E1 E2. apply (malloc_run f1) in E1 as [L1 F1]. apply (malloc_run f2) in E2 as [L2 F2].
  specialize (F1 I1). specialize (F2 I2). destruct a1; [|right; left; split; [by destruct F1|done]]. destruct a2; [|right; right; split; [by destruct F2|done]].
  left. splits; [by apply (inv_wle _ w1)|by apply (inv_wle _ w2)|done].
Qed.
Lemma rM_malloc_arr {A} (Q : A -> A -> Prop) n m : rM (fun r => r = None) (op (ar Q)) (malloc_arr A n) (malloc_arr A m).
Proof.
  unfold malloc_arr. eapply rM_bind; [apply rM_malloc| | |].
  - intros [a|] [b|] H; try done; apply rM_ret; [|done]. apply cel_fresh1.
  - intros _ a ->. by apply res_ret.
  - intros _ a ->. by apply res_ret.
Qed.
Lemma rM_calloc_arr {A} (Q : A -> A -> Prop) n m x y : Q x y -> rM (fun r => r = None) (op (ar Q)) (calloc_arr n x) (calloc_arr m y).
Proof.
  intros Hx. unfold calloc_arr. eapply rM_bind; [apply rM_malloc| | |].
  - intros [a|] [b|] H; try done; apply rM_ret; [|done]. by apply cel_fill.
  - intros _ a ->. by apply res_ret.
  - intros _ a ->. by apply res_ret.
Qed.
Lemma realloc_run f p n w r w' : realloc p n w = Ok (r, w') -> wle w w' /\ (inv f w -> r <> None \/ f = true).
Proof.
  destruct p as [b|]; simpl; [|apply malloc_run]. destruct (decide _); [|done].
  destruct (w_fail w (w_next w)) eqn:E; intros [= <- <-]; (split; [split; simpl; auto|]).
  - intros [?|H]; [by right|]. rewrite (H (w_next w)) in E by lia. done.
  - by left.
Qed.
Lemma rM_realloc p q n m : rM (fun r => r = None) (op any) (realloc p n) (realloc q m).
Proof.
  intros w1 w2 a1 w1' a2 w2' I1 I2 E1 E2. apply (realloc_run f1) in E1 as [L1 F1]. apply (realloc_run f2) in E2 as [L2 F2].
  specialize (F1 I1). specialize (F2 I2). destruct a1; [|right; left; split; [by destruct F1|done]]. destruct a2; [|right; right; split; [by destruct F2|done]].
  left. splits; [by apply (inv_wle _ w1)|by apply (inv_wle _ w2)|done].
Qed.
Lemma rM_realloc_arr {A} (Q : A -> A -> Prop) (p q : option (arr A)) n m : lo Q p q -> rM (fun r => r = None) (op (ar Q)) (realloc_arr p n) (realloc_arr q m).
Proof.
  intros Hp. unfold realloc_arr. eapply rM_bind; [apply rM_realloc| | |].
  - intros [a|] [b|] H; try done; apply rM_ret; [|done]. simpl. unfold ar. simpl. apply cel_resize.
    destruct p as [p|]; [|intros ? ? ?; by rewrite lookup_nil]. destruct q as [q|]; [by apply Hp|intros ? ? ? _; by rewrite lookup_nil].
  - intros _ a ->. by apply res_ret.
  - intros _ a ->. by apply res_ret.
Qed.

(** *** Automation *)

Class Rep (A : Type) := rep : A -> Prop.
Instance Rep_ec : Rep ecode | 0 := fun e => e <> ER_OK.
Instance Rep_oec : Rep (option ecode) | 0 := fun e => e <> None /\ e <> Some ER_OK.
Instance Rep_prod {A B} `{Rep A} : Rep (A * B) | 5 := fun x => rep x.1.
Instance Rep_opt {A} : Rep (option A) | 5 := fun x => x = None.
Instance Rep_unit : Rep unit | 0 := fun _ => True.
Instance Rep_sum {S T} `{Rep T} : Rep (S + T) | 5 := leaves rep.
Instance Rep_bool : Rep bool | 5 := fun b => b = false.
Instance Rel_M {A} `{Rel A} `{Rep A} : Rel (M A) | 3 := fun m1 m2 => rM rep rel m1 m2.
Ltac is_relM f := let T := eval cbv [rel Rel_M rep Rep_ec Rep_oec Rep_prod Rep_opt Rep_unit Rep_sum Rep_bool Rel_eq Rel_prod Rel_sum Rel_cel Rel_arr Rel_op Rel_list Rel_dg Rel_sr Rel_so Rel_tc Rel_cl Rel_es Rel_hs Rel_bs Rel_sk Rel_nn nnrel Rel_rad radrel Rel_R Rel_fun_eq Rel_fun] in (rel f f) in exact T.

Ltac said :=
  cbv beta in * |-; cbn [fst snd] in * |-;
  repeat match goal with
  | H : False |- _ => destruct H
  | H : ~ (?x <> ER_OK), H2 : ?x <> ER_OK |- _ => destruct (H H2)
  | H : ?x = ER_OK, H2 : ?x <> ER_OK |- _ => destruct (H2 H)
  | H : ~ (?x <> ER_OK) |- _ => exfalso; apply H; discriminate
  | H : _ = ER_OK |- _ => discriminate H
  | H : leaves _ ?r |- _ => destruct r as [?|?]; cbn [leaves] in H
  | H : ?x.1 <> ER_OK |- _ => is_var x; destruct x; cbn [fst snd] in H
  | H : ?x.1.1 <> ER_OK |- _ => is_var x; destruct x; cbn [fst snd] in H
  | H : ?x.1.1.1 <> ER_OK |- _ => is_var x; destruct x; cbn [fst snd] in H
  | H : ?x = None |- _ => is_var x; subst x
  | H : ?x = false |- _ => is_var x; subst x
  | H : ~ (None = None \/ _) |- _ => exfalso; apply H; left; reflexivity
  | H : ~ (_ \/ None = None) |- _ => exfalso; apply H; right; reflexivity
  | H : ~ (true = true /\ None = None) |- _ => exfalso; apply H; split; reflexivity
  end.
Ltac is_constr x := match x with inl _ => idtac | inr _ => idtac | Some _ => idtac | None => idtac | (_, _) => idtac | true => idtac | false => idtac end.
Ltac repT A := let r := constr:(@rep A _) in eval cbv [rep Rep_ec Rep_oec Rep_prod Rep_opt Rep_unit Rep_sum Rep_bool] in r.
Ltac res_step :=
  match goal with
  | |- forall _, _ => intro; said
  | |- _ -> _ => intro; said
  | |- resM _ (let x := _ in _) => cbv zeta
  | |- resM _ (Mbind (Mbind _ _) _) => apply res_assoc
  | |- resM _ (Mbind (Mret _) _) => apply res_retl; cbv beta iota
  | |- resM _ (Mbind (make_error _ _ _) _) => eapply res_bind; [apply res_error|intros ? ->]
  | |- resM _ (Mbind (make_error_msg _ _ _ _) _) => eapply res_bind; [apply res_error_msg|intros ? ->]
  | |- resM _ (Mbind (match ?x with _ => _ end) _) => destruct x; said; try done
  | |- resM _ (Mbind _ _) => apply res_skip
  | |- resM _ (Mret _) => apply res_ret; cbn [leaves fst snd]; first [assumption | done]
  | |- resM _ (Mbad _) => apply res_bad
  | |- resM _ (match ?x with _ => _ end) => first [is_constr x; cbv beta iota | destruct x; said; try done]
  | |- resM _ (match ?x with _ => _ end _) => destruct x; said; try done
  end.
Create HintDb rm.
Hint Extern 1 (op _ _ _) => prove_rel : rm.
Hint Extern 1 (lo _ _ _) => prove_rel : rm.
Hint Extern 1 (cel _ _ _) => prove_rel : rm.
Hint Extern 1 (ar _ _ _) => prove_rel : rm.
Hint Extern 1 (pr _ _ _ _) => prove_rel : rm.
Hint Extern 1 (dgr _ _) => prove_rel : rm.
Hint Extern 1 (srr _ _) => prove_rel : rm.
Hint Extern 1 (srl _ _) => prove_rel : rm.
Hint Extern 1 (sor _ _) => prove_rel : rm.
Hint Extern 1 (tcr _ _) => prove_rel : rm.
Hint Extern 1 (clr _ _) => prove_rel : rm.
Hint Extern 1 (hsr _ _) => prove_rel : rm.
Hint Extern 1 (bsr _ _) => prove_rel : rm.
Hint Extern 1 (skr _ _) => prove_rel : rm.
Hint Extern 1 (Forall2 _ _ _) => prove_rel : rm.
Hint Extern 1 (_ = _) => reflexivity : rm.
Hint Resolve rM_free_arr rM_reset rM_make_error rM_make_error_msg rM_malloc_arr rM_calloc_arr rM_realloc_arr : rm.
Ltac rm_hint := solve [eauto 2 with rm nocore].
Ltac rm_step :=
  match goal with
  | H : f1 = false |- f1 = true -> _ => rewrite H; discriminate
  | H : f2 = false |- f2 = true -> _ => rewrite H; discriminate
  | |- f1 = true -> _ => intros _ ? ?; said
  | |- f2 = true -> _ => intros _ ? ?; said
  | |- forall _, _ => intro; nrm
  | |- rM _ _ (let x := _ in _) _ => cbv zeta
  | |- rM _ _ (Mbad _) _ => apply rM_bad1
  | |- rM _ _ _ (Mbad _) => apply rM_bad2
  | |- rM _ _ (Mret _) (Mret _) => apply rM_ret; prove_rel
  | |- rM _ _ (Mbind (Mbind _ _) _) (Mbind (Mbind _ _) _) => apply rM_assoc
  | |- rM _ _ (Mbind (Mret _) _) (Mbind (Mret _) _) => apply rM_retl; cbv beta iota; nrm
  | |- rM _ _ (Mbind (@lift ?A _) _) (Mbind (lift _) _) => let Q := relT A in apply (rM_lift Q); [rr_go|intros ? ? ?; nrm]
  | |- rM _ _ (Mbind (match ?x with _ => _ end) _) (Mbind (match ?y with _ => _ end) _) => scrut x y
  | |- rM _ _ (Mbind (free_arr _) _) _ => apply (rM_bind never any); [apply rM_free_arr|intros _ _ _; nrm|intros _ _ []|intros _ _ []]
  | |- rM _ _ (Mbind (make_error _ _ _) _) _ => eapply (rM_bind never); [apply rM_make_error|intros ? ? [-> ->]; nrm|intros _ _ []|intros _ _ []]
  | |- rM _ _ (Mbind (make_error_msg _ _ _ _) _) _ => eapply (rM_bind never); [apply rM_make_error_msg|intros ? ? [-> ->]; nrm|intros _ _ []|intros _ _ []]
  | |- rM _ _ (Mbind (@loopM ?A ?B _ _ _ _) _) (Mbind (loopM _ _ _ _) _) => let Q := relT A in let Q' := relT B in let X := repT B in eapply (rM_bind _ (sm Q Q')); [eapply (rM_loop X Q Q'); [prove_rel|intros ? ? ? ?; nrm]|intros ? ? ?; nrm| | ]
  | |- rM _ _ (@Mbind ?A _ _ _) (Mbind _ _) => let Q := relT A in eapply (rM_bind _ Q); [rm_hint|intros ? ? ?; nrm| | ]
  | |- rM _ _ (lift _) (lift _) => apply rM_lift0; rr_go
  | |- rM _ _ (match ?x with _ => _ end) (match ?y with _ => _ end) => scrut x y
  | |- rM _ _ (match decide ?p with _ => _ end) (match decide ?q with _ => _ end) => opts; (apply if_iff; [iffp|intros _; nrm|intros _; nrm])
  | |- rM _ _ _ _ => rm_hint
  | |- resM _ _ => res_step
  | |- _ => progress res_step
  end.
Ltac rm_go := repeat rm_step.

Lemma sm_free_digraph g h : rM never dgr (free_digraph g) (free_digraph h).
Proof. unfold free_digraph. rm_go.
Qed.
Hint Resolve sm_free_digraph : rm.
Lemma sm_init_digraph : ltac:(is_relM (init_digraph cfg)).
Proof. ins. unfold init_digraph. rm_go.
Qed.
Hint Resolve sm_init_digraph : rm.

Lemma sm_empty_digraph : ltac:(is_relM (empty_digraph cfg)).
Proof. ins. unfold empty_digraph. nrm. rm_go.
Qed.
Hint Resolve sm_empty_digraph : rm.
Definition head_ok (g : digraph) : Prop := is_Some (dg_head g) <-> dg_max g <> 0.
Definition sub_arr (p q : option (arr nat)) : Prop := forall a, p = Some a -> exists b, q = Some b /\ forall i x, a_cells a !! i = Some (Some x) -> a_cells b !! i = Some (Some x).
Lemma change_run f g m w ec g' w' : head_ok g -> inv f w -> change_arc_storage cfg g m w = Ok ((ec, g'), w') ->
  wle w w' /\ ((too_many_arcs cfg m = true /\ ec = ER_TOO_LARGE_PROBLEM) \/ (f = true /\ ec <> ER_OK) \/
    (too_many_arcs cfg m = false /\ ec = ER_OK /\ dg_n g' = dg_n g /\ dg_max g' = m /\ dg_tail g' = dg_tail g /\ (m <> 0 <-> is_Some (dg_head g')) /\
     forall a i x, dg_head g' = Some a -> a_cells a !! i = Some (Some x) -> exists b, dg_head g = Some b /\ a_cells b !! i = Some (Some x))).
Proof.
  intros Hh Hi. unfold change_arc_storage. destruct (too_many_arcs cfg m); [intros [= <- <- <-]; split; [by split|left; by splits]|].
  destruct (decide (dg_max g = m)) as [E|E].
  { intros [= <- <- <-]. split; [by split|]. right. right. unfold head_ok in Hh. splits; try done; [rewrite <- E; tauto|]. eauto. }
  destruct (decide (m = 0)) as [->|E0].
  { unfold Mbind, free_arr. destruct (free _ w) as [[u w1]|] eqn:F; [|done]. intros [= <- <- <-]. apply wle_free in F. split; [done|].
    right. right. simpl. splits; try done. split; [done|intros [? ?]; done]. }
  unfold Mbind at 1, realloc_arr. unfold Mbind at 1. destruct (realloc _ _ w) as [[r w1]|] eqn:F; [|done]. simpl. apply (realloc_run f) in F as [L F]. specialize (F Hi).
  destruct r as [b|]; simpl.
  - intros [= <- <- <-]. split; [done|]. right. right. simpl. splits; try done.
    intros a i x [= <-] Hx. simpl in Hx. apply resize_lookup in Hx. destruct (dg_head g) as [h|]; [by exists h|by rewrite lookup_nil in Hx].
  - intros [= <- <- <-]. split; [destruct L; by split|]. right. left. destruct F; done.
Qed.
Lemma sm_change_arc_storage_lo a b m : dg_n a = dg_n b -> lo eq (dg_head a) (dg_head b) -> op (ar eq) (dg_tail a) (dg_tail b) -> head_ok a -> head_ok b ->
  rM (fun x => x.1 <> ER_OK) (fun x y => x.1 = y.1 /\ (x.1 = ER_OK -> dgr x.2 y.2)) (change_arc_storage cfg a m) (change_arc_storage cfg b m).
Proof.
  intros Hn Hh Ht Ha Hb w1 w2 [e1 g1] w1' [e2 g2] w2' I1 I2 E1 E2.
  apply (change_run f1) in E1 as (L1 & C1); [|done..]. apply (change_run f2) in E2 as (L2 & C2); [|done..].
  assert (inv f1 w1' /\ inv f2 w2') as [J1 J2] by (split; [by apply (inv_wle _ w1)|by apply (inv_wle _ w2)]).
  destruct C1 as [(T1 & ->)|[(? & ?)|(T1 & -> & A1 & A2 & A3 & A4 & A5)]]; [|by right; left|];
  destruct C2 as [(T2 & ->)|[(? & ?)|(T2 & -> & B1 & B2 & B3 & B4 & B5)]]; try (by right; right); try congruence; left; splits; try done.
  intros _. unfold dgr. simpl. rewrite A1, B1, A3, B3. splits; [done|congruence| |done].
  destruct (dg_head g1) as [x|] eqn:X1, (dg_head g2) as [y|] eqn:X2; simpl; try done.
  - intros i u v U V. destruct (A5 _ _ _ eq_refl U) as (x' & Ex & Hx). destruct (B5 _ _ _ eq_refl V) as (y' & Ey & Hy). by apply (Hh _ _ Ex Ey i).
  - assert (m <> 0) as Hm by (apply A4; eauto). apply B4 in Hm as [? ?]. done.
  - assert (m <> 0) as Hm by (apply B4; eauto). apply A4 in Hm as [? ?]. done.
Qed.
Definition blank {A} (c : list (option A)) : Prop := exists n, c = fresh A n.
Lemma blank1 {A} (Q : A -> A -> Prop) c d : blank c -> cel Q c d.
Proof. intros [n ->]. apply cel_fresh1. Qed.
Lemma blank2 {A} (Q : A -> A -> Prop) c d : blank d -> cel Q c d.
Proof. intros [n ->]. apply cel_fresh2. Qed.
Lemma rM_malloc_blank {A} n m : rM (fun r => r = None) (op (fun a b => blank (a_cells a) /\ blank (a_cells b))) (malloc_arr A n) (malloc_arr A m).
Proof.
  unfold malloc_arr. eapply rM_bind; [apply rM_malloc| | |].
  - intros [a|] [b|] H; try done; apply rM_ret; [|done]. simpl. split; by eexists.
  - intros _ a ->. by apply res_ret.
  - intros _ a ->. by apply res_ret.
Qed.
Lemma free_digraph_run g w h w' : free_digraph g w = Ok (h, w') -> wle w w' /\ h = dg_null.
Proof.
  unfold free_digraph. unfold Mbind at 1. destruct (free_arr (dg_head g) w) as [[u w1]|] eqn:F1; [|done].
  unfold Mbind at 1. destruct (free_arr (dg_tail g) w1) as [[u2 w2]|] eqn:F2; [|done]. intros [= <- <-]. split; [|done].
  apply wle_free in F1, F2. by eapply wle_trans.
Qed.
Lemma init_run f n m w ec g w' : inv f w -> init_digraph cfg n m w = Ok ((ec, g), w') ->
  wle w w' /\ ((too_many_arcs cfg m = true /\ ec = ER_TOO_LARGE_PROBLEM /\ g = dg_null) \/ (f = true /\ ec <> ER_OK) \/
    (too_many_arcs cfg m = false /\ ec = ER_OK /\ dg_n g = n /\ head_ok g /\ (exists t, dg_tail g = Some t /\ blank (a_cells t)) /\
     forall a, dg_head g = Some a -> blank (a_cells a))).
Proof.
  intros Hi. unfold init_digraph. destruct (too_many_arcs cfg m); [intros [= <- <- <-]; split; [by split|left; by splits]|].
  unfold malloc_arr. unfold Mbind at 1. unfold Mbind at 1. destruct (malloc _ w) as [[r w1]|] eqn:F; [|done]. simpl. apply (malloc_run f) in F as [L F]. specialize (F Hi).
  destruct r as [b|]; simpl.
  2: { intros [= <- <- <-]. split; [destruct L; by split|]. right. left. by destruct F. }
  destruct (decide (0 < m)) as [Hm|Hm].
  - unfold Mbind at 1. unfold Mbind at 1. destruct (malloc _ w1) as [[r w2]|] eqn:F2; [|done]. simpl. apply (malloc_run f) in F2 as [L2 F2]. specialize (F2 ltac:(by apply (inv_wle _ w))).
    destruct r as [b2|]; simpl.
    + intros [= <- <- <-]. split; [by eapply wle_trans|]. right. right. unfold head_ok. simpl. splits; try done; [split; [intros; lia|eauto]|eexists; split; [done|by eexists]|].
      intros a [= <-]. by eexists.
    + unfold Mbind at 1. match goal with |- match ?m with _ => _ end = _ -> _ => destruct m as [[g2 w3]|] eqn:F3 end; [|done]. apply free_digraph_run in F3 as [L3 ->].
      intros [= <- <- <-]. split; [|right; left; by destruct F2]. eapply wle_trans; [exact L|]. eapply wle_trans; [exact L2|]. destruct L3 as [L3 L4]. by split.
  - intros [= <- <- <-]. split; [done|]. right. right. unfold head_ok. simpl. splits; try done; [split; [intros [? ?]; done|lia]|eexists; split; [done|by eexists]].
Qed.
(** Room for the arcs: a second attempt with the exact number follows a failed first one. *)
Definition try_room (n greedy : nat) (cells : list (option (option nat))) (cnt : R (list (option (option nat)) * nat)) : M (ecode * digraph * list (option (option nat))) :=
  let* r := init_digraph cfg n greedy in
  if decide (r.1 <> ER_OK) then
    let* _ := reset_error in
    let* c := lift cnt in
    let* r := init_digraph cfg n c.2 in
    Mret (r, c.1)
  else Mret (r, cells).
Definition room (x y : ecode * digraph * list (option (option nat))) : Prop :=
  x.1.1 = y.1.1 /\ (x.1.1 <> ER_OK -> x.1.2 = dg_null /\ y.1.2 = dg_null) /\ (x.1.1 = ER_OK -> dg_n x.1.2 = dg_n y.1.2 /\ lo eq (dg_head x.1.2) (dg_head y.1.2) /\ op (ar eq) (dg_tail x.1.2) (dg_tail y.1.2) /\
    head_ok x.1.2 /\ head_ok y.1.2 /\ cel eq x.2 y.2).
Lemma try_run f n greedy cells cnt w ec g mk w' : inv f w -> try_room n greedy cells cnt w = Ok ((ec, g, mk), w') ->
  inv f w' /\ ((f = true /\ ec <> ER_OK) \/
    (exists m, if too_many_arcs cfg greedy then cnt = Ok (mk, m) /\ too_many_arcs cfg m = true /\ ec = ER_TOO_LARGE_PROBLEM /\ g = dg_null else False) \/
    (ec = ER_OK /\ dg_n g = n /\ head_ok g /\ (exists t, dg_tail g = Some t /\ blank (a_cells t)) /\ (forall a, dg_head g = Some a -> blank (a_cells a)) /\
     if too_many_arcs cfg greedy then exists m, cnt = Ok (mk, m) /\ too_many_arcs cfg m = false
     else mk = cells \/ exists m, cnt = Ok (mk, m))).
Proof.
  intros Hi. unfold try_room. unfold Mbind at 1. destruct (init_digraph cfg n greedy w) as [[[e1 g1] w1]|] eqn:F1; [|done].
  apply (init_run f) in F1 as (L1 & C1); [|done]. assert (inv f w1) as I1 by (by apply (inv_wle _ w)).
  destruct (decide _) as [Hec|Hec]; cbn [fst] in Hec.
  - unfold Mbind at 1. simpl. unfold Mbind at 1, lift. destruct cnt as [[mk1 m1]|]; [|done].
    unfold Mbind at 1. simpl. match goal with |- match ?m with _ => _ end = _ -> _ => destruct m as [[[e2 g2] w2]|] eqn:F2 end; [|done].
    apply (init_run f) in F2 as (L2 & C2); [|by apply (inv_wle _ w1); [|split]]. intros [= <- <- <- <-].
    assert (inv f w2) as I2 by (eapply inv_wle; [|exact L2]; by apply (inv_wle _ w1); [|split]). split; [done|].
    destruct C1 as [(T1 & -> & ?)|[(Hf & _)|(_ & -> & _)]]; [| |done].
    + rewrite T1. destruct C2 as [(T2 & -> & ?)|[?|(T2 & -> & ? & ? & ? & ?)]]; [right; left; by exists m1|by left|right; right]. splits; try done. by exists m1.
    + destruct C2 as [(T2 & -> & ?)|[?|(T2 & -> & ? & ? & ? & ?)]]; [by left|by left|right; right]. splits; try done. destruct (too_many_arcs cfg greedy); [by exists m1|]. right. by exists m1.
  - intros [= <- <- <- <-]. split; [done|]. right. right. destruct C1 as [(T1 & -> & ?)|[(Hf & ?)|(T1 & -> & ? & ? & ? & ?)]]; [by destruct Hec|by destruct Hec|].
    splits; try done. rewrite T1. by left.
Qed.
Lemma sm_try_room n greedy c1 c2 cnt1 cnt2 : blank c1 -> blank c2 -> rR (pr (cel eq) eq) cnt1 cnt2 ->
  rM (fun x => x.1.1 <> ER_OK) room (try_room n greedy c1 cnt1) (try_room n greedy c2 cnt2).
Proof.
  intros B1 B2 Hc w1 w2 [[e1 g1] m1] w1' [[e2 g2] m2] w2' I1 I2 E1 E2.
  apply (try_run f1) in E1 as (J1 & C1); [|done]. apply (try_run f2) in E2 as (J2 & C2); [|done].
  destruct C1 as [(? & ?)|[(k1 & C1)|(-> & A1 & A2 & (t1 & A3 & A3') & A4 & A5)]]; [by right; left| |];
  destruct C2 as [(? & ?)|[(k2 & C2)|(-> & D1 & D2 & (t2 & D3 & D3') & D4 & D5)]]; try (by right; right); left; splits; try done; unfold room; simpl.
  - destruct (too_many_arcs cfg greedy); [|done]. destruct C1 as (_ & _ & -> & ->), C2 as (_ & _ & -> & ->). done.
  - destruct (too_many_arcs cfg greedy); [|done]. destruct C1 as (Q1 & T1 & -> & ->), D5 as (k2 & Q2 & T2). destruct (Hc _ _ Q1 Q2) as [_ E]. simpl in E. congruence.
  - destruct (too_many_arcs cfg greedy); [|done]. destruct C2 as (Q1 & T1 & -> & ->), A5 as (k1 & Q2 & T2). destruct (Hc _ _ Q2 Q1) as [_ E]. simpl in E. congruence.
  - split; [done|]. split; [done|]. intros _. splits; try done; [congruence|intros a b X1 X2; apply blank1; by eapply A4|rewrite A3, D3; by apply blank1|].
    destruct (too_many_arcs cfg greedy).
    + destruct A5 as (k1 & Q1 & _), D5 as (k2 & Q2 & _). by destruct (Hc _ _ Q1 Q2) as [E _].
    + destruct A5 as [->|(k1 & Q1)]; [by apply blank1|]. destruct D5 as [->|(k2 & Q2)]; [by apply blank2|]. by destruct (Hc _ _ Q1 Q2) as [E _].
Qed.
Lemma sm_change_arc_storage : ltac:(is_relM (change_arc_storage cfg)).
Proof. ins. unfold change_arc_storage. nrm. rm_go.
Qed.
Hint Resolve sm_change_arc_storage : rm.
Lemma sm_delete_loops : ltac:(is_relM (delete_loops cfg)).
Proof. ins. unfold delete_loops. nrm. rm_go.
Qed.
Hint Resolve sm_delete_loops : rm.
Lemma sm_digraph_difference : ltac:(is_relM (digraph_difference cfg)).
Proof. ins. unfold digraph_difference. nrm. rm_go.
Qed.
Hint Resolve sm_digraph_difference : rm.
Lemma sm_digraph_transpose : ltac:(is_relM (digraph_transpose cfg)).
Proof. ins. unfold digraph_transpose. nrm. rm_go.
Qed.
Hint Resolve sm_digraph_transpose : rm.
Ltac mallocb := eapply rM_bind; [apply rM_malloc_blank|intros [?|] [?|] ?; cbn [op] in *; try tauto; nrm| | ].
Lemma sm_digraph_union_and_delete : ltac:(is_relM (digraph_union_and_delete cfg)).
Proof.
  intros l1 l2 Hl ts ks. unfold digraph_union_and_delete. destruct Hl as [|x y l1 l2 Hx Hl]; [apply rM_bad1|].
  pose proof Hx as Hx'. destruct Hx' as (En & _). rewrite <- En. cbv zeta.
  apply (rM_lift eq).
  { assert (Forall2 dgr (x :: l1) (y :: l2)) as Hxl by by constructor. revert Hxl. generalize (x :: l1) (y :: l2). clear. intros l l' Hl. rr_go. }
  intros greedy ? <-. mallocb; [|rm_go|rm_go|rm_go].
  apply rM_unassoc. eapply (rM_bind _ room).
  { apply sm_try_room; [tauto|tauto|]. apply rr_do_union_count; [by constructor|]. apply blank1. tauto. }
  2: { intros _ [[e g] mk] He. cbn [fst snd] in He. cbv beta iota. rm_go. }
  2: { intros _ [[e g] mk] He. cbn [fst snd] in He. cbv beta iota. rm_go. }
  intros [[e1 g1] mk1] [[e2 g2] mk2] (E & Hn & Hr). cbn [fst snd] in E, Hn, Hr. subst e2. destruct (decide (e1 <> ER_OK)) as [He|He].
  { destruct (Hn He) as [-> ->]. rm_go. }
  destruct (decide (e1 = ER_OK)) as [->|]; [|done]. destruct (Hr eq_refl) as (R1 & R2 & R3 & R4 & R5 & R6). clear Hr Hn He.
  apply (rM_lift (pr (pr eq (op (ar eq))) (lox (is_Some (Digraph.dg_head g1)) (is_Some (Digraph.dg_head g2))))).
  { apply rr_do_union_write; [by constructor|done|done|by split]. }
  intros [[k1 t1] h1] [[k2 t2] h2] [[K T] (W1 & W2 & W3)]. cbn [fst snd] in K, T, W1, W2, W3. subst k2. rm_step.
  eapply rM_bind; [apply sm_change_arc_storage_lo; unfold head_ok in *; cbn [Digraph.dg_n Digraph.dg_max Digraph.dg_head Digraph.dg_tail]; try done; tauto| | | ].
  - intros [e1 d1] [e2 d2] [E Hd]. cbn [fst snd] in E, Hd. subst e2. destruct (decide (e1 <> ER_OK)) as [He|He]; [rm_go|].
    apply rM_ret. split; [done|]. apply Hd. by destruct (decide (e1 = ER_OK)).
  - rm_go.
  - rm_go.
Qed.
Hint Resolve sm_digraph_union_and_delete : rm.
Lemma sm_adjacency_product : ltac:(is_relM (adjacency_product cfg)).
Proof.
  intros a b Hab a' b' Hab' f. unfold adjacency_product. pose proof Hab as Hx'. destruct Hx' as (En & _). rewrite <- En. cbv zeta.
  mallocb; [|rm_go|rm_go|rm_go]. apply (rM_lift eq).
  { rr_go. }
  intros greedy ? <-. apply rM_unassoc. eapply (rM_bind _ room).
  { apply sm_try_room; [tauto|tauto|]. apply rr_do_product_count; [prove_rel|prove_rel|]. apply blank1. tauto. }
  2: { intros _ [[e g] mk] He. cbn [fst snd] in He. cbv beta iota. rm_go. }
  2: { intros _ [[e g] mk] He. cbn [fst snd] in He. cbv beta iota. rm_go. }
  intros [[e1 g1] mk1] [[e2 g2] mk2] (E & Hn & Hr). cbn [fst snd] in E, Hn, Hr. subst e2. destruct (decide (e1 <> ER_OK)) as [He|He].
  { destruct (Hn He) as [-> ->]. rm_go. }
  destruct (decide (e1 = ER_OK)) as [->|]; [|done]. destruct (Hr eq_refl) as (R1 & R2 & R3 & R4 & R5 & R6). clear Hr Hn He.
  apply (rM_lift (pr (pr eq (op (ar eq))) (lox (is_Some (Digraph.dg_head g1)) (is_Some (Digraph.dg_head g2))))).
  { apply rr_do_product_write; [prove_rel|prove_rel|done|done|by split]. }
  intros [[k1 t1] h1] [[k2 t2] h2] [[K T] (W1 & W2 & W3)]. cbn [fst snd] in K, T, W1, W2, W3. subst k2. rm_step.
  eapply rM_bind; [apply sm_change_arc_storage_lo; unfold head_ok in *; cbn [Digraph.dg_n Digraph.dg_max Digraph.dg_head Digraph.dg_tail]; try done; tauto| | | ].
  - intros [e1 d1] [e2 d2] [E Hd]. cbn [fst snd] in E, Hd. subst e2. destruct (decide (e1 <> ER_OK)) as [He|He]; [rm_go|].
    apply rM_ret. split; [done|]. apply Hd. by destruct (decide (e1 = ER_OK)).
  - rm_go.
  - rm_go.
Qed.
Hint Resolve sm_adjacency_product : rm.

(** *** Seeds *)

Lemma rM_unit X (m1 m2 : M unit) : rM X any m1 m2 -> rM X eq m1 m2.
Proof. intros H. eapply rM_mono; [exact H|done|]. by intros [] []. Qed.
Lemma sm_free_sort_result a b : rM never eq (free_sort_result a) (free_sort_result b).
Proof. unfold free_sort_result. apply rM_unit. rm_go. Qed.
Hint Resolve sm_free_sort_result : rm.
Lemma sm_add_seed : ltac:(is_relM (add_seed cfg)).
Proof. ins. unfold add_seed. nrm. rm_go.
Qed.
Hint Resolve sm_add_seed : rm.
Lemma sm_sort_by_inwards : ltac:(is_relM (sort_by_inwards cfg)).
Proof. ins. unfold sort_by_inwards. nrm. rm_go.
Qed.
Hint Resolve sm_sort_by_inwards : rm.
Lemma sm_findseeds_lexical : ltac:(is_relM (findseeds_lexical cfg)).
Proof. ins. unfold findseeds_lexical. nrm. rm_go.
Qed.
Hint Resolve sm_findseeds_lexical : rm.
Lemma sm_inwards_step : ltac:(is_relM (inwards_step cfg)).
Proof. ins. unfold inwards_step. nrm. rm_go.
Qed.
Hint Resolve sm_inwards_step : rm.
Lemma sm_findseeds_inwards : ltac:(is_relM (findseeds_inwards cfg)).
Proof. ins. unfold findseeds_inwards. nrm. rm_go.
Qed.
Hint Resolve sm_findseeds_inwards : rm.
Lemma sm_exclusion_graph : ltac:(is_relM (exclusion_graph cfg)).
Proof. ins. unfold exclusion_graph. nrm. rm_go.
Qed.
Hint Resolve sm_exclusion_graph : rm.
Lemma sm_exclusion_step : ltac:(is_relM (exclusion_step cfg)).
Proof. ins. unfold exclusion_step. nrm. rm_go.
Qed.
Hint Resolve sm_exclusion_step : rm.
Lemma rM_malloc_lo {A} (Q : A -> A -> Prop) n m : rM never (lo Q) (malloc_arr A n) (malloc_arr A m).
Proof.
  intros w1 w2 a1 w1' a2 w2' I1 I2. unfold malloc_arr, Mbind. destruct (malloc _ w1) as [[r1 v1]|] eqn:E1; [|done]. destruct (malloc _ w2) as [[r2 v2]|] eqn:E2; [|done].
  apply (malloc_run true) in E1 as [L1 _], E2 as [L2 _]. intros F1 F2. left.
  assert (v1 = w1') as <- by (destruct r1; by injection F1 as _ <-). assert (v2 = w2') as <- by (destruct r2; by injection F2 as _ <-).
  splits; [by apply (inv_wle _ w1)|by apply (inv_wle _ w2)|]. intros a b -> ->. destruct r1; [|done]. injection F1 as <-. apply cel_fresh1.
Qed.
Lemma wle_skip {A} (m : M unit) (k : M A) w a w' : (forall w w', m w = Ok (tt, w') -> wle w w') -> (forall w a w', k w = Ok (a, w') -> wle w w') -> Mbind m (fun _ => k) w = Ok (a, w') -> wle w w'.
Proof. unfold Mbind. intros H1 H2. destruct (m w) as [[[] v]|] eqn:E; [|done]. intros E2. eapply wle_trans; [by eapply H1|by eapply H2]. Qed.
Definition tmp_rel (n : nat) (x y : option (arr bool) * option (arr nat) * nat) : Prop :=
  op (ar eq) x.1.1 y.1.1 /\ (n <> 0 -> op (ar eq) x.1.2 y.1.2) /\ x.2 = y.2 /\ (n = 0 -> x.2 = 0).
Lemma sm_findseeds_exclusion : ltac:(is_relM (findseeds_exclusion cfg)).
Proof.
  intros g h Hg u sr1 sr2 Hsr. unfold findseeds_exclusion. pose proof Hg as (En & Em & Eh & Et). rewrite <- En. cbv zeta.
  rm_step; [|rm_go|rm_go]. rm_step; [|rm_go]. eapply (rM_bind never); [apply rM_malloc_lo|intros tmp1 tmp2 Htmp|done|done].
  eapply (rM_bind never any); [|intros _ _ _|done|done].
  { apply rM_keep; intros w x w'.
    - destruct tmp1; [intros [= <- <-]; by split|]. apply wle_skip; [intros ? ? E; exact (wle_free _ _ _ _ E)|]. intros ? ? ? [= <- <-]. by split.
    - destruct tmp2; [intros [= <- <-]; by split|]. apply wle_skip; [intros ? ? E; exact (wle_free _ _ _ _ E)|]. intros ? ? ? [= <- <-]. by split. }
  apply (rM_lift (tmp_rel (dg_n))).
  { destruct (dg_n) as [|m].
    { apply rR_ok. unfold tmp_rel. simpl. done. }
    apply (rR_mono (pr (pr (op (ar eq)) (op (ar eq))) eq)).
    - simpl. eapply rR_bind.
      + instantiate (1 := pr (pr (op (ar eq)) (op (ar eq))) eq). rr_go.
      + intros [[? ?] ?] [[? ?] ?] ?. nrm. rr_go.
    - intros [[? ?] ?] [[? ?] ?] [[? ?] ?]. unfold tmp_rel. simpl in *. splits; auto. lia. }
  intros [[ne1 t1] num1] [[ne2 t2] num2] (R1 & R2 & R3 & R4). cbn [fst snd] in R1, R2, R3, R4. subst num2.
  eapply (rM_bind never (pr (op (ar eq)) eq)); [|intros [t3 n3] [t4 n4] [Ht3 Hn3]; cbn [fst snd] in Ht3, Hn3; subst n4|done|done].
  { destruct (decide (num1 = dg_n)) as [E|E]; [rm_go|]. apply rM_ret. split; [|done]. apply R2. lia. }
  clear tmp1 tmp2 Htmp t1 t2 R2 R4. nrm. rm_go.
Qed.
Hint Resolve sm_findseeds_exclusion : rm.
(** If seeds have been found there is memory for them. *)
Definition seeded (r : ecode * seed_result) : Prop := r.1 = ER_OK -> is_Some (sr_seeds r.2).
Definition seeded_or {S} (I : S -> Prop) (r : S + (ecode * seed_result)) : Prop := match r with inl s => I s | inr r => seeded r end.
Lemma res_loop {S} (I : S -> Prop) n i s (f : nat -> S -> M (S + (ecode * seed_result))) :
  I s -> (forall j s, I s -> resM (seeded_or I) (f j s)) -> resM (seeded_or I) (loopM n i s f).
Proof.
  intros Hs Hf. revert i s Hs. unfold loopM. induction n as [|n IH]; intros i s Hs w a w'; simpl; [by intros [= <- <-]|].
  destruct (f i s w) as [[[s1|t1] w1]|] eqn:E; [| |done]; simpl.
  - pose proof (Hf _ _ Hs _ _ _ E) as H1. exact (IH _ _ H1 w1 a w').
  - intros [= <- <-]. exact (Hf _ _ Hs _ _ _ E).
Qed.
Lemma res_lift {A} (X : A -> Prop) m : (forall a, m = Ok a -> X a) -> resM X (lift m).
Proof. intros H w a w'. unfold lift. destruct m; [|done]. intros [= <- <-]. by apply H. Qed.
Ltac ok_step :=
  match goal with
  | |- forall _, _ => intro
  | |- resM _ (let x := _ in _) => cbv zeta
  | |- resM _ (Mbind (Mbind _ _) _) => apply res_assoc
  | |- resM _ (Mbind (Mret _) _) => apply res_retl; cbv beta iota
  | |- resM _ (Mbind (make_error _ _ _) _) => eapply res_bind; [apply res_error|intros ? ->]
  | |- resM _ (Mbind (make_error_msg _ _ _ _) _) => eapply res_bind; [apply res_error_msg|intros ? ->]
  | |- resM _ (Mbind ?m _) => lazymatch m with loopM _ _ _ _ => fail | add_seed _ _ _ => fail | _ => apply res_skip end
  | |- resM _ (Mret _) => apply res_ret; cbn [seeded_or]; try done; try (unfold seeded; cbn [fst snd sr_seeds]; intros ?; solve [congruence | done | by eexists])
  | |- resM _ (match ?x with _ => _ end) => destruct x; try done
  end.
Ltac ok_go := repeat ok_step.
Lemma aset_some {A} (p q : option (arr A)) i x : aset p i x = Ok q -> is_Some q.
Proof. unfold aset. destruct p as [a|]; [|done]. simpl. destruct (cset _ _ _); [|done]. intros [= <-]. by eexists. Qed.
Lemma ok_add_seed v sr : resM seeded (add_seed cfg v sr).
Proof.
  unfold add_seed. ok_step; [ok_go|]. apply res_skip. intros [ec s]. ok_step; [ok_go|]. eapply (res_bind is_Some); [apply res_lift; intros a E; exact (aset_some _ _ _ _ E)|].
  intros a Ha. ok_go.
Qed.
Ltac by_add := eapply res_bind; [apply ok_add_seed|]; intros [ec ?] Hs'; ok_go; simpl; apply Hs'; simpl; by destruct (decide (ec = ER_OK)).
Lemma ok_lexical g sr : resM seeded (findseeds_lexical cfg g sr).
Proof.
  unfold findseeds_lexical. ok_go.
  eapply res_bind; [apply (res_loop (fun x => is_Some (sr_seeds x.2)))| ].
  - simpl. destruct a0; [by eexists|]. exfalso. apply n. by right.
  - intros j [mk s] Hs. simpl in Hs. ok_go. by_add.
  - intros [[mk s]|r] Hr; simpl in Hr; ok_go.
Qed.
Lemma ok_inwards g u sr : resM seeded (findseeds_inwards cfg g u sr).
Proof.
  unfold findseeds_inwards. ok_go.
  eapply res_bind; [apply (res_loop (fun x => is_Some (sr_seeds x.1.2)))| ].
  - simpl. match goal with |- is_Some ?x => destruct x end; [by eexists|]. match goal with H : ~ (_ \/ None = None) |- _ => exfalso; apply H; by right end.
  - intros j [[mk s'] so] Hs. simpl in Hs. unfold inwards_step. ok_go; by_add.
  - intros [[[mk s'] so]|r] Hr; simpl in Hr; ok_go.
Qed.
Lemma ok_exclusion g u sr : resM seeded (findseeds_exclusion cfg g u sr).
Proof.
  unfold findseeds_exclusion. ok_go.
  all: eapply res_bind; [apply (res_loop (fun x => is_Some (sr_seeds x.1.2)))| ].
  all: try (simpl; by eexists).
  all: try (intros j [[[mk e'] s'] so] Hs; simpl in Hs; unfold exclusion_step; ok_go; by_add).
  all: intros [[[[mk e'] s'] so]|r] Hr; simpl in Hr; ok_go.
Qed.
Lemma rM_res {A} (X Z : A -> Prop) Q m1 m2 : rM X Q m1 m2 -> resM Z m1 -> rM X (fun a b => Q a b /\ Z a) m1 m2.
Proof.
  intros H HZ w1 w2 a1 w1' a2 w2' I1 I2 E1 E2. destruct (H _ _ _ _ _ _ I1 I2 E1 E2) as [(?&?&?)|?]; [left|by right]. splits; auto. by eapply HZ.
Qed.
Definition shrink (s : seed_result) : M (ecode * seed_result) :=
  let* p := realloc_arr (sr_seeds s) (sr_count s) in
  match p with
  | None => Mret (ER_OK, s)
  | Some _ => Mret (ER_OK, SR (sr_count s) (sr_count s) p)
  end.
Lemma shrink_run s r w w' : shrink s w = Ok (r, w') -> is_Some (sr_seeds s) ->
  wle w w' /\ r.1 = ER_OK /\ sr_count r.2 = sr_count s /\ exists a b, sr_seeds s = Some a /\ sr_seeds r.2 = Some b /\ (a_cells b = a_cells a \/ a_cells b = resize (sr_count s) (a_cells a)).
Proof.
  intros E [a Ha]. unfold shrink in E. rewrite Ha in E. unfold realloc_arr in E. unfold Mbind at 1 in E. unfold Mbind at 1 in E.
  destruct (realloc _ _ w) as [[q w1]|] eqn:F; [|done]. apply (realloc_run true) in F as [L _]. destruct q; injection E as <- <-; splits; try done; exists a.
  - eexists. splits; [done..|]. by right.
  - eexists. splits; [done..|]. by left.
Qed.
Lemma sm_find_seeds g h m s1 s2 : dgr g h -> srr s1 s2 -> rM (fun x => x.1 <> ER_OK) (pr eq srl) (find_seeds cfg g m s1) (find_seeds cfg h m s2).
Proof.
  intros Hg Hs. unfold find_seeds. fold shrink.
  eapply (rM_bind (fun x => x.1 <> ER_OK) (fun x y => pr eq srr x y /\ seeded x)).
  - apply rM_res.
    + destruct m; rm_go.
    + destruct m; try apply ok_lexical; try apply ok_inwards; try apply ok_exclusion; ok_go.
  - intros [e1 r1] [e2 r2] [[E (R1 & R2 & R3)] Hk]. unfold seeded in Hk. cbn [fst snd] in *. subst e2. destruct (decide (e1 <> ER_OK)) as [He|He]; [apply rM_ret; by splits|].
    rewrite <- R1, <- R2. destruct (decide _) as [Hd|Hd]; [|apply rM_ret; by splits].
    specialize (Hk ltac:(by destruct (decide (e1 = ER_OK)))). fold (shrink r1). fold (shrink r2).
    intros w1 w2 [a1 q1] w1' [a2 q2] w2' I1 I2 E1 E2.
    assert (is_Some (sr_seeds r2)) as Hk2 by (destruct (sr_seeds r1), (sr_seeds r2); try done; by destruct Hk).
    assert (shrink r2 w2 = Ok (a2, q2, w2')) as E2' by (unfold shrink; by rewrite <- R2).
    apply shrink_run in E1 as (L1 & A1 & A2 & x1 & y1 & X1 & Y1 & C1); [|done]. apply shrink_run in E2' as (L2 & B1 & B2 & x2 & y2 & X2 & Y2 & C2); [|done].
    left. splits; [by apply (inv_wle _ w1)|by apply (inv_wle _ w2)|]. split; [by simpl in *; congruence|]. split; [by simpl in *; congruence|]. simpl in *. rewrite Y1, Y2. rewrite X1, X2 in R3. simpl in *. unfold ar in *.
    destruct C1 as [-> | ->], C2 as [-> | ->]; [done|by apply cel_resize2|by apply cel_resize1|by apply cel_resize].
  - rm_go.
  - rm_go.
Qed.

(** Clusterings before the call: the contents of the label arrays are compared only
    where both hold a value, and one of them may still be without. *)
Definition clw (a b : clustering) : Prop :=
  c_version a = c_version b /\ c_n a = c_n b /\ c_k a = c_k b /\ lo eq (c_label a) (c_label b).
Definition labels_for (cl : clustering) : M (option clustering) :=
  match c_label cl with
  | Some _ => Mret (Some cl)
  | None =>
      let* l := malloc_arr Z (c_n cl) in
      match l with
      | None => Mret None
      | Some _ => Mret (Some (Clu (c_version cl) (c_n cl) (c_k cl) l false))
      end
  end.
Lemma labels_run f cl w r w' : labels_for cl w = Ok (r, w') -> wle w w' /\ (inv f w -> r <> None \/ f = true) /\
  forall c, r = Some c -> c_version c = c_version cl /\ c_n c = c_n cl /\ c_k c = c_k cl /\ exists a, c_label c = Some a /\ (c_label cl = Some a \/ c_label cl = None /\ blank (a_cells a)).
Proof.
  unfold labels_for. destruct (c_label cl) as [a|] eqn:E.
  { intros [= <- <-]. splits; [by split|by left|]. intros c [= <-]. splits; try done. exists a. auto. }
  unfold malloc_arr. unfold Mbind at 1. unfold Mbind at 1. destruct (malloc _ w) as [[q w1]|] eqn:F; [|done]. apply (malloc_run f) in F as [L F]. destruct q; simpl; intros [= <- <-]; splits; try done.
  - by left.
  - intros c [= <-]. splits; try done. eexists. split; [done|]. right. split; [done|]. by eexists.
  - intros Hi. right. by destruct (F Hi).
Qed.
Lemma sm_labels a b : clw a b -> rM (fun r => r = None) (op clr) (labels_for a) (labels_for b).
Proof.
  intros (V & N & K & L) w1 w2 r1 w1' r2 w2' I1 I2 E1 E2. apply (labels_run f1) in E1 as (L1 & F1 & C1). apply (labels_run f2) in E2 as (L2 & F2 & C2). specialize (F1 I1). specialize (F2 I2).
  destruct r1 as [c1|]; [|right; left; split; [by destruct F1|done]]. destruct r2 as [c2|]; [|right; right; split; [by destruct F2|done]]. left. splits; [by apply (inv_wle _ w1)|by apply (inv_wle _ w2)|].
  destruct (C1 _ eq_refl) as (V1 & N1 & K1 & x & X1 & X2), (C2 _ eq_refl) as (V2 & N2 & K2 & y & Y1 & Y2). simpl. unfold clr. rewrite X1, Y1. splits; try congruence. simpl.
  destruct X2 as [X2|[_ B]]; [|by apply blank1]. destruct Y2 as [Y2|[_ B]]; [|by apply blank2]. by apply L.
Qed.
Lemma same_init a b : clw a b -> c_k a = 0 -> is_initialized_clustering cfg (Some a) = is_initialized_clustering cfg (Some b).
Proof.
  intros (V & N & K & _) E. unfold is_initialized_clustering. rewrite V, N, K. rewrite <- K, E. simpl. repeat destruct (decide _); try done; try lia.
  all: repeat case_match; try done; lia.
Qed.
Definition okoc (x y : ecode * option clustering) : Prop := x.1 = y.1 /\ (x.1 = ER_OK -> op clr x.2 y.2).

(** *** Hierarchical clustering *)

Section HierSame.
Context (P : provider) {RM : NNRel (p_mx P)} {RE : NNRel (p_ds P)}.
(** The search functions used by scc_hierarchical_clustering answer alike. *)
Record hier_same : Prop := {
  hp_check : forall ds ds', RE ds ds' -> p_check P ds = p_check P ds';
  hp_num : forall ds ds', RE ds ds' -> p_num P ds = p_num P ds';
  hp_rows : forall ds ds' q c, RE ds ds' -> rM (fun r => r = None) eq (p_rows P ds q c) (p_rows P ds' q c);
  hp_init : forall ds ds' s, RE ds ds' -> rM (fun r => r = None) (op RM) (p_mx_init P ds s) (p_mx_init P ds' s);
  hp_get : forall o o' q, RM o o' -> rM (fun r => r = None) eq (p_mx_get P o q) (p_mx_get P o' q);
  hp_close : forall o o', RM o o' -> rM (fun r => r = false) eq (p_mx_close P o) (p_mx_close P o');
  hp_close_any : forall o o', RM o o' -> rM never any (p_mx_close P o) (p_mx_close P o')
}.
Context (HP : hier_same).
Context (qs : world -> list (nat * double) -> list (nat * double)) (log2cap : nat -> nat -> nat).
(** The order of edges at the same distance depends on the edges only. *)
Context (Hqs : forall w1 w2 l, qs w1 l = qs w2 l).

Lemma sh_rows ds ds' q c : RE ds ds' -> rM (fun r => r = None) eq (p_rows P ds q c) (p_rows P ds' q c).
Proof. by apply hp_rows. Qed.
Lemma sh_init ds ds' s : RE ds ds' -> rM (fun r => r = None) (op RM) (p_mx_init P ds s) (p_mx_init P ds' s).
Proof. by apply hp_init. Qed.
Lemma sh_get o o' q : RM o o' -> rM (fun r => r = None) eq (p_mx_get P o q) (p_mx_get P o' q).
Proof. by apply hp_get. Qed.
Lemma sh_close_eq o o' : RM o o' -> rM (fun r => r = false) eq (p_mx_close P o) (p_mx_close P o').
Proof. by apply hp_close. Qed.
Hint Resolve sh_rows sh_init sh_get sh_close_eq : rm.
Lemma sh_dist_rows : ltac:(is_relM (dist_rows P)).
Proof. ins. unfold dist_rows. rm_go. Qed.
Lemma sh_mx_init : ltac:(is_relM (mx_init P)).
Proof. ins. unfold mx_init. rm_go. Qed.
Lemma sh_max_dist : ltac:(is_relM (max_dist P)).
Proof. ins. unfold max_dist. rm_go. Qed.
Hint Resolve sh_dist_rows sh_mx_init sh_max_dist : rm.
Lemma op_d_ptr {A} off (p q : option (arr A)) : op (ar eq) p q -> op (cel eq) (d_ptr off p) (d_ptr off q).
Proof. intros H. destruct p, q; try done. by apply cel_drop. Qed.
Hint Extern 1 (op _ (d_ptr _ _) (d_ptr _ _)) => apply op_d_ptr; prove_rel : rm.
Lemma sh_centers_iter : ltac:(is_relM (centers_iter P)).
Proof. ins. unfold centers_iter. nrm. rm_go. Qed.
Hint Resolve sh_centers_iter : rm.
Lemma sh_find_centers : ltac:(is_relM (find_centers cfg P)).
Proof. ins. unfold find_centers. nrm. 
  repeat first [progress cbn [negb] | match goal with |- rM _ _ (Mbind (p_mx_close _ _) (fun _ => Mbind (make_error _ _ _) _)) _ => eapply (rM_bind never any); [apply hp_close_any; assumption|intros _ _ _; nrm|done|done] end | rm_step]. Qed.
Hint Resolve sh_find_centers : rm.
Lemma sh_sort_edge_list w1 w2 it center st st' dd dd' off e f : op (ar eq) st st' -> op (ar eq) dd dd' -> op esr e f ->
  rR (op esr) (sort_edge_list qs w1 it center st dd off e) (sort_edge_list qs w2 it center st' dd' off f).
Proof. ins. unfold sort_edge_list. nrm. repeat first [rewrite (Hqs w1 w2) | rr_step | match goal with |- rR _ ((let (_, _) := ?x in _) _) _ => destruct x end]. Qed.
Hint Resolve sh_sort_edge_list : rr.
Lemma sh_populate : ltac:(is_relM (populate_edge_lists P qs)).
Proof.
  ins. unfold populate_edge_lists. nrm. repeat first [match goal with |- rM _ _ (Mbind (fun w => Ok (w, w)) _) _ => apply (rM_bind never any); [apply rM_keep; intros ? ? ? [= <- <-]; by split|intros w1 w2 _; nrm|done|done] end | rm_step].
Qed.
Hint Resolve sh_populate : rm.
Lemma sh_break it ds ds' k batch h h' : RE ds ds' -> hsr h h' ->
  rM (fun x : ecode * option (hitem * hitem) * hst => x.1.1 <> ER_OK /\ x.1.2 = None) (pr (pr eq eq) hsr) (break_cluster cfg P qs it ds k batch h) (break_cluster cfg P qs it ds' k batch h').
Proof. ins. unfold break_cluster. nrm. rm_go. Qed.
Lemma sh_check_capacity : ltac:(is_relM check_capacity).
Proof. ins. unfold check_capacity. nrm. rm_go. Qed.
Hint Resolve sh_check_capacity : rm.
Lemma sh_run_step : ltac:(is_relM (run_step cfg P qs)).
Proof. ins. unfold run_step. nrm.
  repeat first [match goal with |- rM _ _ (Mbind (break_cluster _ _ _ _ _ _ _ _) _) _ => eapply rM_bind; [apply sh_break; prove_rel|intros ? ? ?; nrm| | ];
    [|intros _ [[? ?] ?] [? ?]; cbn [fst snd] in *; subst; by apply res_ret..] end | rm_step]. Qed.
Hint Resolve sh_run_step : rm.
Lemma sh_hi_run : ltac:(is_relM (hi_run cfg P qs)).
Proof. ins. unfold hi_run. nrm. rm_go. Qed.
Hint Resolve sh_hi_run : rm.
Lemma sh_empty_cl_stack n : rM (fun x : ecode * option (hstack * option (arr nat)) => x.1 <> ER_OK /\ x.2 = None) (pr eq (op (pr skr (op (ar eq))))) (empty_cl_stack log2cap n) (empty_cl_stack log2cap n).
Proof. ins. unfold empty_cl_stack. nrm. rm_go. Qed.
Lemma sh_init_cl_stack a b : clr a b -> rM (fun x : ecode * option (hstack * option (arr nat) * nat) => x.1 <> ER_OK /\ x.2 = None) (pr eq (op (pr (pr skr (op (ar eq))) eq)))
  (init_cl_stack cfg log2cap a) (init_cl_stack cfg log2cap b).
Proof. ins. unfold init_cl_stack. nrm. rm_go. Qed.
Lemma sh_malloc_es n : rM (fun r => r = None) (op esr) (malloc_es n) (malloc_es n).
Proof.
  unfold malloc_es. eapply rM_bind; [apply rM_malloc| |intros _ ? ->; by apply res_ret|intros _ ? ->; by apply res_ret].
  intros [a|] [b|] H; try done; apply rM_ret; [|done]. split; [done|]. split; apply cel_fresh1.
Qed.
Lemma sh_free_es e f : rM never any (free_es e) (free_es f).
Proof. apply rM_keep; intros w a w'; apply wle_free. Qed.
Hint Resolve sh_malloc_es : rm.
Lemma same_init2 a b : clw a b -> is_Some (c_label a) -> is_Some (c_label b) -> is_initialized_clustering cfg (Some a) = is_initialized_clustering cfg (Some b).
Proof. intros (V & N & K & _) [x X] [y Y]. unfold is_initialized_clustering. by rewrite V, N, K, X, Y. Qed.
Definition label_part (c : clustering) : M (bool * clustering) :=
  match c_label c with
  | Some _ => Mret (true, c)
  | None =>
      let* l := malloc_arr Z (c_n c) in
      Mret (match l with None => false | Some _ => true end, Clu (c_version c) (c_n c) (c_k c) l false)
  end.
Lemma label_part_run f cl w r w' : label_part cl w = Ok (r, w') -> wle w w' /\ (inv f w -> r.1 = true \/ f = true) /\
  (r.1 = true -> c_version r.2 = c_version cl /\ c_n r.2 = c_n cl /\ c_k r.2 = c_k cl /\ exists a, c_label r.2 = Some a /\ (c_label cl = Some a \/ c_label cl = None /\ blank (a_cells a))).
Proof.
  unfold label_part. destruct (c_label cl) as [a|] eqn:E.
  { intros [= <- <-]. splits; [by split|by left|]. intros _. splits; try done. exists a. auto. }
  unfold malloc_arr. unfold Mbind at 1. unfold Mbind at 1. destruct (malloc _ w) as [[q w1]|] eqn:F; [|done]. apply (malloc_run f) in F as [L F]. destruct q; simpl; intros [= <- <-]; splits; try done.
  - by left.
  - intros _. splits; try done. eexists. split; [done|]. right. split; [done|]. by eexists.
  - intros Hi. right. by destruct (F Hi).
Qed.
Lemma sh_label_part a b : clw a b -> rM (fun r => r.1 = false) (fun x y => x.1 = true /\ y.1 = true /\ clr x.2 y.2) (label_part a) (label_part b).
Proof.
  intros (V & N & K & L) w1 w2 r1 w1' r2 w2' I1 I2 E1 E2. apply (label_part_run f1) in E1 as (L1 & F1 & C1). apply (label_part_run f2) in E2 as (L2 & F2 & C2). specialize (F1 I1). specialize (F2 I2).
  destruct r1 as [[] c1]; [|right; left; split; [by destruct F1|done]]. destruct r2 as [[] c2]; [|right; right; split; [by destruct F2|done]]. left. splits; [by apply (inv_wle _ w1)|by apply (inv_wle _ w2)|done|done|].
  destruct (C1 eq_refl) as (V1 & N1 & K1 & x & X1 & X2), (C2 eq_refl) as (V2 & N2 & K2 & y & Y1 & Y2). simpl in *. unfold clr. rewrite X1, Y1. splits; try congruence. simpl.
  destruct X2 as [X2|[_ B]]; [|by apply blank1]. destruct Y2 as [Y2|[_ B]]; [|by apply blank2]. by apply L.
Qed.
(** The first part of scc_hierarchical_clustering. *)
Definition start (c : clustering) : M ((clustering * hstack * option (arr nat) * nat) + (ecode * clustering)) :=
  let n := c_n c in
  if decide (c_k c = 0) then
    let* r := label_part c in
    let '(ok, c) := r in
    if negb ok then let* ec := make_error ER_NO_MEMORY src_hier 209 in Mret (inr (ec, c)) else
    let* r := empty_cl_stack log2cap n in
    match r with
    | (_, Some (s, st)) => Mret (inl (c, s, st, n))
    | (ec, None) => Mret (inr (ec, c))
    end
  else
    let* r := init_cl_stack cfg log2cap c in
    match r with
    | (_, Some (s, st, big)) => Mret (inl (c, s, st, big))
    | (ec, None) => Mret (inr (ec, c))
    end.
Definition started (x y : (clustering * hstack * option (arr nat) * nat) + (ecode * clustering)) : Prop :=
  sm (pr (pr (pr clr skr) (op (ar eq))) eq) (fun x y => x.1 = y.1 /\ (x.1 = ER_OK -> clr x.2 y.2)) x y.
Definition clp (a b : clustering) : Prop := clw a b /\ (c_k a = 0 \/ (is_Some (c_label a) /\ is_Some (c_label b))).
Definition start_failed (x : (clustering * hstack * option (arr nat) * nat) + (ecode * clustering)) : Prop := match x with inl _ => False | inr x => x.1 <> ER_OK end.
Lemma sh_start a b : clp a b -> rM start_failed started (start a) (start b).
Proof.
  intros [Hw Hk]. pose proof Hw as (V & N & K & L). unfold start. cbv zeta. apply if_iff; [by rewrite K|intros E|intros E].
  - eapply rM_bind; [exact (sh_label_part a b Hw)| | | ].
    + intros [? c1] [? c2] (X1 & X2 & Hc). cbn [fst snd] in *. subst. cbn [negb]. rewrite <- N. eapply rM_bind; [apply sh_empty_cl_stack| | | ].
      * intros [e1 [[s1 st1]|]] [e2 [[s2 st2]|]] [He Hs]; cbn [fst snd op] in *; try done.
        { apply rM_ret. destruct Hs. unfold started. prove_rel. }
        apply rM_ret. by split.
      * intros _ [e1 r] [He Hr]. cbn [fst snd] in *. subst. by apply res_ret.
      * intros _ [e1 r] [He Hr]. cbn [fst snd] in *. subst. by apply res_ret.
    + intros _ [? c1] X. cbn [fst] in X. subst. cbn [negb]. eapply res_bind; [apply res_error|]. intros ? ->. by apply res_ret.
    + intros _ [? c1] X. cbn [fst] in X. subst. cbn [negb]. eapply res_bind; [apply res_error|]. intros ? ->. by apply res_ret.
  - destruct Hk as [?|[[x X] [y Y]]]; [done|]. assert (clr a b) as Hc. { unfold clr. splits; try done. rewrite X, Y. by apply L. }
    eapply rM_bind; [by apply sh_init_cl_stack| | | ].
    + intros [e1 [[[s1 st1] b1]|]] [e2 [[[s2 st2] b2]|]] [He Hs]; cbn [fst snd op] in *; try done.
      { apply rM_ret. destruct Hs as [[? ?] ?]. unfold started. prove_rel. }
      apply rM_ret. by split.
    + intros _ [e1 r] [He Hr]. cbn [fst snd] in *. subst. by apply res_ret.
    + intros _ [e1 r] [He Hr]. cbn [fst snd] in *. subst. by apply res_ret.
Qed.
Lemma sh_hierarchical ds ds' k batch a b : RE ds ds' -> clp a b ->
  rM (fun x => x.1 <> ER_OK) okoc (hierarchical_clustering cfg P qs log2cap ds k batch (Some a)) (hierarchical_clustering cfg P qs log2cap ds' k batch (Some b)).
Proof.
  intros Hds Hp. pose proof Hp as [Hw Hk]. pose proof Hw as (V & N & K & L).
  assert (is_initialized_clustering cfg (Some a) = is_initialized_clustering cfg (Some b)) as Hi. { destruct Hk as [Hk|[? ?]]; [by apply same_init|by apply same_init2]. }
  pose proof (sh_start a b Hp) as Hs. unfold start, label_part in Hs. unfold hierarchical_clustering. rewrite <- Hi, <- (hp_check HP _ _ Hds), <- (hp_num HP _ _ Hds). cbv zeta.
  destruct (negb _); [rm_step; apply rM_ret; by split|]. destruct (negb _); [rm_step; apply rM_ret; by split|].
  apply if_iff; [by rewrite N|intros _; rm_step; apply rM_ret; by split|intros _].
  destruct (decide (k < 2)); [rm_step; apply rM_ret; by split|].
  apply if_iff; [by rewrite N|intros _; rm_step; apply rM_ret; by split|intros _].
  eapply rM_bind; [exact Hs| | | ]; clear Hs.
  2, 3: intros _ [?|[e1 c1]] X; [done|]; by apply res_ret.
  intros [[[[c1 s1] st1] b1]|[e1 c1]] [[[[c2 s2] st2] b2]|[e2 c2]] X; try done; cbn [started sm] in X.
  2: { apply rM_ret. destruct X as [X1 X2]. split; [done|]. exact X2. }
  nrm. rewrite <- N.
  repeat first
    [ match goal with |- rM _ _ (Mbind (free_es _) _) _ => apply (rM_bind never any); [apply sh_free_es|intros _ _ _; nrm|intros _ _ []|intros _ _ []] end
    | match goal with |- rM _ okoc (Mret _) (Mret _) => apply rM_ret; split; [reflexivity|intros _; cbn [fst snd op]; prove_rel] end
    | rm_step ].
Qed.
End HierSame.

(** *** Search functions *)

Context (P : provider) {RN : NNRel (p_nn P)} {RD : NNRel (p_ds P)} {RR : RadRel} {Est : Prop}.
Record provider_same : Prop := {
  ps_check : forall ds ds', RD ds ds' -> p_check P ds = p_check P ds';
  ps_num : forall ds ds', RD ds ds' -> p_num P ds = p_num P ds';
  ps_rows : forall ds ds' q c, Est -> RD ds ds' -> rM (fun r => r = None) eq (p_rows P ds q c) (p_rows P ds' q c);
  ps_init : forall ds ds' s, RD ds ds' -> rM (fun r => r = None) (op RN) (p_nn_init P ds s) (p_nn_init P ds' s);
  ps_search : forall o o' q k r r', RN o o' -> op RR r r' -> rM (fun r => r = None) eq (p_nn_search P o q k r) (p_nn_search P o' q k r');
  ps_close : forall o o', RN o o' -> rM (fun r => r = false) eq (p_nn_close P o) (p_nn_close P o');
  ps_close_any : forall o o', RN o o' -> rM never any (p_nn_close P o) (p_nn_close P o');
  ps_sign : forall r r', RR r r' -> d_le r d_zero = d_le r' d_zero;
  ps_avg : Est -> forall r, RR r r
}.
Context (HP : provider_same).
Lemma sm_close o o' : RN o o' -> rM never any (p_nn_close P o) (p_nn_close P o').
Proof. by apply ps_close_any. Qed.
Lemma sm_close_opt (o o' : option (p_nn P)) : op RN o o' -> rM never eq (close_opt P o) (close_opt P o').
Proof.
  intros H. unfold close_opt. destruct o, o'; try done; [|by apply rM_ret]. eapply rM_bind; [by apply sm_close|intros; by apply rM_ret|done|done].
Qed.
Hint Resolve sm_close_opt : rm.
Lemma sm_rows ds ds' q c : Est -> RD ds ds' -> rM (fun r => r = None) eq (p_rows P ds q c) (p_rows P ds' q c).
Proof. by apply ps_rows. Qed.
Lemma sm_init ds ds' s : RD ds ds' -> rM (fun r => r = None) (op RN) (p_nn_init P ds s) (p_nn_init P ds' s).
Proof. by apply ps_init. Qed.
Lemma sm_search o o' q k r r' : RN o o' -> op RR r r' -> rM (fun r => r = None) eq (p_nn_search P o q k r) (p_nn_search P o' q k r').
Proof. by apply ps_search. Qed.
Lemma sm_close_eq o o' : RN o o' -> rM (fun r => r = false) eq (p_nn_close P o) (p_nn_close P o').
Proof. by apply ps_close. Qed.
Hint Resolve sm_rows sm_init sm_search sm_close_eq : rm.

Lemma sm_nn_init : ltac:(is_relM (nn_init P)).
Proof. ins. unfold nn_init. rm_go. Qed.
Hint Resolve sm_nn_init : rm.
Lemma sm_dist_rows : Est -> ltac:(is_relM (dist_rows P)).
Proof. ins. unfold dist_rows. rm_go. Qed.
Hint Resolve sm_dist_rows : rm.
Lemma sm_nn_search o o' len q q' k rad rad' b b' out out' : RN o o' -> op RR rad rad' -> op (cel eq) q q' -> op (op (ar eq)) b b' -> lo eq out out' ->
  rM (fun r => r = None) (op (pr (pr eq (op (op (ar eq)))) (op (ar eq)))) (nn_search P o len q k rad b out) (nn_search P o' len q' k rad' b' out').
Proof. ins. unfold nn_search. rm_go. Qed.
Hint Resolve sm_nn_search : rm.
Lemma sm_make_nng_from_search_object : ltac:(is_relM (make_nng_from_search_object cfg P)).
Proof. ins. unfold make_nng_from_search_object. rm_go. Qed.
Hint Resolve sm_make_nng_from_search_object : rm.
Lemma sm_make_nng : ltac:(is_relM (make_nng cfg P)).
Proof. ins. unfold make_nng. rm_go. Qed.
Hint Resolve sm_make_nng : rm.
Lemma sm_finish_nng g h : dgr g h -> rM never dgr (finish_nng cfg g) (finish_nng cfg h).
Proof. ins. unfold finish_nng. rm_go. Qed.
Hint Resolve sm_finish_nng : rm.
Lemma sm_get_nng_with_size_constraint : ltac:(is_relM (get_nng_with_size_constraint cfg P)).
Proof. ins. unfold get_nng_with_size_constraint. rm_go. Qed.
Hint Resolve sm_get_nng_with_size_constraint : rm.
Lemma sm_free_tc a b : rM never eq (free_tc a) (free_tc b).
Proof. unfold free_tc. apply rM_unit. rm_go. Qed.
Hint Resolve sm_free_tc : rm.
Lemma sm_get_type_count : ltac:(is_relM get_type_count).
Proof. ins. unfold get_type_count. rm_go. Qed.
Hint Resolve sm_get_type_count : rm.
Lemma sm_type_step : ltac:(is_relM (type_step cfg P)).
Proof. ins. unfold type_step. nrm. rm_go. Qed.
Hint Resolve sm_type_step : rm.
Lemma sm_free_dgs (p q : option (arr digraph)) n : rM never eq (free_dgs p n) (free_dgs q n).
Proof. apply rM_unit. unfold free_dgs. apply rM_for_free. intros j s t.
  assert (forall r : option (arr digraph), forall w a w', (let* d := lift (aget r j) in let* _ := free_digraph d in Mret tt) w = Ok (a, w') -> wle w w') as Hr.
  { intros r w a w'. unfold Mbind at 1, lift. destruct (aget r j) as [d|]; [|done]. unfold Mbind at 1. destruct (free_digraph d w) as [[h v]|] eqn:F; [|done].
    intros [= <- <-]. by apply free_digraph_run in F as [? _]. }
  apply rM_keep; apply Hr.
Qed.
Hint Resolve sm_free_dgs : rm.
Lemma sm_add_general_nn : ltac:(is_relM (add_general_nn cfg P)).
Proof. ins. unfold add_general_nn. nrm. rm_go. Qed.
Hint Resolve sm_add_general_nn : rm.
Lemma sm_get_nng_with_type_constraint : ltac:(is_relM (get_nng_with_type_constraint cfg P)).
Proof. ins. unfold get_nng_with_type_constraint. nrm. rm_go. Qed.
Hint Resolve sm_get_nng_with_type_constraint : rm.
Lemma sm_estimate_avg_seed_dist ds ds' s t g h size : Est -> RD ds ds' -> srl s t -> dgr g h ->
  rM (fun x => x.1 <> ER_OK) eq (estimate_avg_seed_dist P ds s g size) (estimate_avg_seed_dist P ds' t h size).
Proof. ins. unfold estimate_avg_seed_dist. nrm. rm_go. Qed.
Hint Resolve sm_estimate_avg_seed_dist : rm.
Lemma sm_assign_by_nng a b g h : f1 = false -> f2 = false -> clr a b -> dgr g h -> rM never (pr clr eq) (assign_by_nng cfg a g) (assign_by_nng cfg b h).
Proof. intros Hfl Hfl'. ins. unfold assign_by_nng. nrm. rm_go. Qed.
Lemma sm_assign_by_nn_search : ltac:(is_relM (assign_by_nn_search P)).
Proof. ins. unfold assign_by_nn_search. nrm. eapply (rM_bind never); [apply rM_malloc_lo|intros o1 o2 Ho|done|done].
  rm_go. Qed.
Hint Resolve sm_assign_by_nn_search : rm.
Lemma sm_assign_stage : ltac:(is_relM (assign_stage P)).
Proof. ins. unfold assign_stage. nrm. rm_go. Qed.
Hint Resolve sm_assign_stage : rm.
Lemma sm_assign_rest a b total um1 rad1 rad1' len prim um2 rad2 rad2' sn sn' oa oa' os os' : op RR rad1 rad1' -> op RR rad2 rad2' -> f1 = false /\ f2 = false \/ um2 = UM_IGNORE ->
  clr a b -> op (ar eq) sn sn' -> op RN oa oa' -> op RN os os' ->
  rM (fun x => x.1 <> ER_OK) (pr eq clr) (assign_rest cfg P a total um1 rad1 len prim um2 rad2 sn oa os) (assign_rest cfg P b total um1 rad1' len prim um2 rad2' sn' oa' os').
Proof.
  intros Hr1 Hr2 Hd. ins. unfold assign_rest. nrm. destruct Hd as [[Hfl Hfl']|Hu].
  - rm_go.
  - destruct (decide (um2 <> UM_IGNORE)) as [Hn|_]; [destruct (Hn Hu)|]. rm_go.
Qed.
Lemma sm_assign_search ds ds' a b s t nas total um1 rad1 rad1' len prim um2 rad2 rad2' sn sn' : op RR rad1 rad1' -> op RR rad2 rad2' -> RD ds ds' -> f1 = false /\ f2 = false \/ um2 = UM_IGNORE ->
  clr a b -> srl s t -> op (ar eq) sn sn' ->
  rM (fun x => x.1 <> ER_OK) (pr eq clr) (assign_search cfg P ds a s nas total um1 rad1 len prim um2 rad2 sn) (assign_search cfg P ds' b t nas total um1 rad1' len prim um2 rad2' sn').
Proof. intros Hr1 Hr2 Hds Hd. pose proof (sm_assign_rest) as Hr. ins. unfold assign_search. nrm. rm_go. Qed.
(** Either no allocation fails, or no step is used that drops its result. *)
Definition keeps (ordered : bool) (um1 um2 : unassigned_method) : Prop :=
  f1 = false /\ f2 = false \/ (um2 = UM_IGNORE /\ um1 <> UM_ANY_NEIGHBOR /\ ~ (ordered = true /\ um1 = UM_CLOSEST_ASSIGNED)).
Lemma sm_make_nng_clusters ds ds' a b s t g h ordered um1 rad1 rad1' len prim um2 rad2 rad2' : op RR rad1 rad1' -> op RR rad2 rad2' -> RD ds ds' -> keeps ordered um1 um2 ->
  clr a b -> srl s t -> dgr g h ->
  rM (fun x => x.1.1 <> ER_OK) (pr (pr eq clr) dgr)
    (make_nng_clusters_from_seeds cfg P a ds s g ordered um1 rad1 len prim um2 rad2) (make_nng_clusters_from_seeds cfg P b ds' t h ordered um1 rad1' len prim um2 rad2').
Proof.
  intros Hr1 Hr2 Hds Hd. pose proof sm_assign_search as Hr. pose proof sm_assign_by_nng as Hn.
  assert (f1 = false /\ f2 = false \/ um2 = UM_IGNORE) as Hd' by (unfold keeps in Hd; tauto).
  ins. unfold make_nng_clusters_from_seeds. nrm. destruct Hd as [[Hfl Hfl']|(_ & H1' & H2')].
  - rm_go.
  - destruct (decide (um1 = UM_ANY_NEIGHBOR \/ _)) as [Hx|_]; [exfalso; tauto|]. rm_go.
Qed.
Definition okc {A} (x y : ecode * clustering * A) : Prop := x.1.1 = y.1.1 /\ (x.1.1 = ER_OK -> clr x.1.2 y.1.2).
(** Options that differ in the supplied radii only. *)
Definition set_radii (o : options) (x y z : double) : options :=
  Options (o_version o) (o_size o) (o_num_types o) (o_tcons o) (o_len_tlabels o) (o_tlabels o) (o_seed o) (o_len_prim o) (o_prim o)
    (o_pum o) (o_sum o) (o_srad o) x (o_prad o) y (o_2rad o) z (o_batch o).
Definition same_radii (o : options) (x y z : double) : Prop :=
  (o_srad o = RM_USE_SUPPLIED -> RR (o_srad_val o) x) /\ (o_prad o = RM_USE_SUPPLIED -> RR (o_prad_val o) y) /\ (o_2rad o = RM_USE_SUPPLIED -> RR (o_2rad_val o) z).
Definition rad_same (r r' : radius_method * double) : Prop := r.1 = r'.1 /\ (r.1 = RM_USE_SUPPLIED -> RR r.2 r'.2).
Definition estimates (o : options) : Prop :=
  (stage_radius (o_pum o) (o_prad o) (o_prad_val o) (o_srad o) (o_srad_val o)).1 = RM_USE_ESTIMATED \/ (stage_radius (o_sum o) (o_2rad o) (o_2rad_val o) (o_srad o) (o_srad_val o)).1 = RM_USE_ESTIMATED.
Lemma radius_arg_same r r' : rad_same r r' -> op RR (radius_arg r) (radius_arg r').
Proof. intros [H1 H2]. unfold radius_arg. rewrite <- H1. destruct (decide _); simpl; auto. Qed.
Lemma stage_radius_same um rm v v' srm sv sv' : (rm = RM_USE_SUPPLIED -> RR v v') -> (srm = RM_USE_SUPPLIED -> RR sv sv') ->
  rad_same (stage_radius um rm v srm sv) (stage_radius um rm v' srm sv').
Proof. intros H1 H2. unfold stage_radius. destruct (decide (um = UM_IGNORE)); [by split|]. destruct (decide _); by split. Qed.
Lemma use_estimate_same r r' avg : Est -> rad_same r r' -> op rad_same (use_estimate r avg) (use_estimate r' avg).
Proof.
  intros HE [H1 H2]. unfold use_estimate. rewrite <- H1. destruct (decide _); [|by split]. destruct (d_gt _ _); simpl; [|done]. split; [done|]. intros _. simpl. by apply (ps_avg HP).
Qed.
Lemma sm_cluster_seeds ds ds' a b s t g h o x y z r1 r1' r2 r2' : rad_same r1 r1' -> rad_same r2 r2' -> RD ds ds' -> keeps (bool_decide (o_num_types o < 2)) (o_pum o) (o_sum o) ->
  clw a b -> srl s t -> dgr g h -> rM (fun x => x.1.1 <> ER_OK) okc (cluster_seeds cfg P a ds g o s r1 r2) (cluster_seeds cfg P b ds' h (set_radii o x y z) t r1' r2').
Proof.
  intros Hr1 Hr2 Hds Hk Hab Hst Hg. unfold cluster_seeds. cbn [set_radii o_num_types o_pum o_sum o_len_prim o_prim]. eapply (rM_bind (fun r => r = None)); [by apply sm_labels| | | ].
  - intros [c|] [d|] Hc; try done.
    + eapply rM_bind; [apply sm_make_nng_clusters; auto using radius_arg_same| | | ].
      * intros [[e1 c1] g1] [[e2 c2] g2] [[E C] G]. simpl in E, C, G. subst e2. eapply (rM_bind never any); [apply rM_free_arr| |done|done]. intros _ _ _. apply rM_ret. split; [done|]. by intros _.
      * rm_go.
      * rm_go.
    + rm_step. rm_step. apply rM_ret. split; [done|]. simpl. done.
  - rm_go.
  - rm_go.
Qed.
Lemma sm_make_clustering_from_nng ds ds' a b g h o x y z : same_radii o x y z -> Est \/ ~ estimates o -> RD ds ds' -> keeps (bool_decide (o_num_types o < 2)) (o_pum o) (o_sum o) ->
  clw a b -> dgr g h -> rM (fun x => x.1.1 <> ER_OK) okc (make_clustering_from_nng cfg P a ds g o) (make_clustering_from_nng cfg P b ds' h (set_radii o x y z)).
Proof.
  intros (Hr & Hr1 & Hr2) He Hds Hk Hab Hg. pose proof Hab as (V & N & K & L). unfold make_clustering_from_nng. rewrite <- N.
  cbn [set_radii o_seed o_size o_pum o_sum o_srad o_prad o_2rad o_srad_val o_prad_val o_2rad_val]. eapply rM_bind; [apply sm_find_seeds; [done|prove_rel]| |rm_go|rm_go].
  intros [e1 s] [e2 t] [E Hs]. simpl in E, Hs. subst e2. destruct (decide (e1 <> ER_OK)); [apply rM_ret; by split|]. cbv zeta.
  pose proof (stage_radius_same (o_pum o) (o_prad o) (o_prad_val o) y (o_srad o) (o_srad_val o) x Hr1 Hr) as S1.
  pose proof (stage_radius_same (o_sum o) (o_2rad o) (o_2rad_val o) z (o_srad o) (o_srad_val o) x Hr2 Hr) as S2.
  apply if_iff; [by rewrite (proj1 S1), (proj1 S2)| |intros _; by apply sm_cluster_seeds].
  intros Hx. destruct He as [HE|He]; [|exfalso; by apply He].
  eapply rM_bind; [by apply sm_estimate_avg_seed_dist| |rm_go|rm_go].
  - intros [e2 avg] ? <-. destruct (decide (e2 <> ER_OK)); [rm_step; apply rM_ret; by split|].
    pose proof (use_estimate_same _ _ avg HE S1) as U1. pose proof (use_estimate_same _ _ avg HE S2) as U2.
    match type of U1 with op _ ?u ?v => destruct u as [q1|], v as [q1'|] end; try done; [|rm_step; rm_step; apply rM_ret; by split].
    match type of U2 with op _ ?u ?v => destruct u as [q2|], v as [q2'|] end; try done; [|rm_step; rm_step; apply rM_ret; by split]. by apply sm_cluster_seeds.
Qed.

(** *** Batches *)

Lemma sm_batch_iter : ltac:(is_relM (batch_iter cfg P)).
Proof. ins. unfold batch_iter. nrm. rm_go. Qed.
Hint Resolve sm_batch_iter : rm.
Lemma sm_run_batches a b o o' size ign rad rad' prim prim' bs bi bi' out out' asg asg' : RN o o' -> op RR rad rad' -> clr a b -> op (ar eq) prim prim' -> op (ar eq) bi bi' -> op (ar eq) out out' -> op (ar eq) asg asg' ->
  rM (fun x => x.1.1.1.1 <> ER_OK) (pr (pr (pr (pr eq clr) (op (ar eq))) (op (ar eq))) (op (ar eq)))
    (run_batches cfg P a o size ign rad prim bs bi out asg) (run_batches cfg P b o' size ign rad' prim' bs bi' out' asg').
Proof. ins. unfold run_batches. nrm. rm_step; [rm_go|rm_go| | ].
  all: intros _ [st|[[e|] [[[[[[? ?] ?] ?] ?] ?] ?]]] Hr; cbn [leaves fst snd] in Hr; [done| |by destruct Hr as [[] _]].
  all: apply res_ret; cbn [fst snd]; intros ->; by destruct Hr.
Qed.
Definition okr (x y : ecode * clustering) : Prop := x.1 = y.1 /\ (x.1 = ER_OK -> clr x.2 y.2).
Lemma rM_calloc_lo {A} (Q : A -> A -> Prop) n m x y : Q x y -> rM never (lo Q) (calloc_arr n x) (calloc_arr m y).
Proof.
  intros HQ w1 w2 a1 w1' a2 w2' I1 I2. unfold calloc_arr, Mbind. destruct (malloc _ w1) as [[r1 v1]|] eqn:E1; [|done]. destruct (malloc _ w2) as [[r2 v2]|] eqn:E2; [|done].
  apply (malloc_run true) in E1 as [L1 _], E2 as [L2 _]. intros F1 F2. left.
  assert (v1 = w1') as <- by (destruct r1; by injection F1 as _ <-). assert (v2 = w2') as <- by (destruct r2; by injection F2 as _ <-).
  splits; [by apply (inv_wle _ w1)|by apply (inv_wle _ w2)|]. intros a b -> ->. destruct r1; [|done]. destruct r2; [|done]. injection F1 as <-. injection F2 as <-. by apply cel_fill.
Qed.
Lemma sm_primary n len (p : list nat) : 0 < len -> rM never (op (ar eq))
  (let* t := calloc_arr n false in lift (forR len 0 t (fun i t => let! x := lget p i in aset t x true)))
  (let* t := calloc_arr n false in lift (forR len 0 t (fun i t => let! x := lget p i in aset t x true))).
Proof.
  intros Hl. eapply (rM_bind never); [by apply rM_calloc_lo| |done|done]. intros a b Hab. apply rM_lift0. destruct len as [|len]; [lia|]. simpl. eapply rR_bind.
  - instantiate (1 := op (ar eq)). rr_go.
  - intros c d Hcd. rr_go.
Qed.
Lemma sm_nng_clustering_batches ds ds' a b size um rad rad' len prim bs : op RR rad rad' -> RD ds ds' -> clw a b -> c_k a = 0 ->
  rM (fun x => x.1 <> ER_OK) okr (nng_clustering_batches cfg P a ds size um rad len prim bs) (nng_clustering_batches cfg P b ds' size um rad' len prim bs).
Proof.
  intros Hrad Hds Hab Hk. pose proof Hab as (V & N & K & L). unfold nng_clustering_batches.
  assert (match rad with Some r => d_le r d_zero | None => false end = match rad' with Some r => d_le r d_zero | None => false end) as Hs. { destruct rad, rad'; try done. by apply (ps_sign HP). }
  rewrite <- Hs. rewrite <- (same_init a b), <- N, <- K, <- (ps_check HP _ _ Hds), <- (ps_num HP _ _ Hds) by done.
  repeat match goal with
  | |- rM _ _ (let x := _ in _) _ => cbv zeta
  | |- rM _ _ (if decide ?x then (let* ec := make_error_msg _ _ _ _ in _) else _) _ => destruct (decide x) as [?|?Hx]; [rm_step; apply rM_ret; by split|]
  | |- rM _ _ (if ?x then (let* ec := make_error_msg _ _ _ _ in _) else _) _ => destruct x; [rm_step; apply rM_ret; by split|]
  end.
  assert (prim <> None -> 0 < len) as Hp. { intros Hp. destruct prim; [|done]. destruct len; [|lia]. exfalso. eauto. }
  rm_step; [|rm_go|rm_go]. rm_step; [|rm_step; apply rM_ret; by split].
  rm_step; [|rm_go|rm_go]. rm_step; [|rm_go|rm_go]. rm_step; [|rm_go|rm_go].
  rm_step; [|rm_go; apply rM_ret; by split]. rm_step; [|rm_go; apply rM_ret; by split]. rm_step; [|rm_go; apply rM_ret; by split].
  eapply (rM_bind (fun r => r = None)); [| |rm_go|rm_go].
  { pose proof (sm_labels a b Hab) as Hl. unfold labels_for in Hl. rewrite <- N, <- K in Hl. exact Hl. }
  intros [c|] [d|] Hc; try done; [|rm_go; apply rM_ret; by split].
  eapply (rM_bind never (op (ar eq))); [destruct prim; [apply sm_primary; by apply Hp|by apply rM_ret]| |done|done].
  intros t1 t2 Ht. eapply rM_bind; [by apply sm_run_batches| |rm_go|rm_go].
  intros [[[[e1 c1] b1] o1] s1] [[[[e2 c2] b2] o2] s2] Hr. nrm. do 4 rm_step.
  eapply (rM_bind never any); [by apply sm_close| |done|done]. intros _ _ _. apply rM_ret. split; [done|]. by intros _.
Qed.

(** *** scc_sc_clustering *)

Lemma supplied_same rm v v' : (rm = RM_USE_SUPPLIED -> RR v v') -> rm = RM_USE_SUPPLIED /\ d_le v d_zero = true <-> rm = RM_USE_SUPPLIED /\ d_le v' d_zero = true.
Proof. intros H. split; intros [H1 H2]; (split; [done|]); [rewrite <- (ps_sign HP _ _ (H H1))|rewrite (ps_sign HP _ _ (H H1))]; done. Qed.
Lemma sm_check_cluster_options o x y z n : same_radii o x y z -> rM never eq (check_cluster_options (Some o) n) (check_cluster_options (Some (set_radii o x y z)) n).
Proof.
  intros (Hr & Hr1 & Hr2). unfold check_cluster_options.
  cbn [set_radii o_version o_size o_num_types o_tcons o_len_tlabels o_tlabels o_seed o_len_prim o_prim o_pum o_sum o_srad o_srad_val o_prad o_prad_val o_2rad o_2rad_val o_batch].
  repeat match goal with
  | |- rM _ _ (let x := _ in _) _ => cbv zeta
  | |- rM _ _ (make_error_msg _ _ _ _) _ => eapply rM_mono; [apply rM_make_error_msg|done|by intros ? ? [-> ->]]
  | |- rM _ _ (Mret _) _ => by apply rM_ret
  | |- rM _ _ (Mbad _) _ => apply rM_bad1
  | |- rM _ _ (Mbind (make_error_msg _ _ _ _) _) _ => eapply (rM_bind never); [apply rM_make_error_msg|intros ? ? [-> ->]|done|done]
  | |- rM _ _ (lift _) _ => apply rM_lift0, rR_refl
  | |- rM _ _ (Mbind _ _) _ => eapply (rM_bind never eq); [|intros ? ? <-|done|done]
  | |- rM _ _ (if decide (_ = RM_USE_SUPPLIED /\ _) then _ else _) _ => apply if_iff; [by apply supplied_same|intros _|intros _]
  | |- rM _ _ (match ?x with _ => _ end) _ => destruct x
  end.
Qed.
Lemma sm_sc_clustering ds ds' o x y z a b : same_radii o x y z -> Est \/ ~ estimates o -> RD ds ds' -> (o_seed o <> SM_BATCHES -> keeps (bool_decide (o_num_types o < 2)) (o_pum o) (o_sum o)) ->
  clw a b -> c_k a = 0 -> rM (fun x => x.1 <> ER_OK) okoc (sc_clustering cfg P ds (Some o) (Some a)) (sc_clustering cfg P ds' (Some (set_radii o x y z)) (Some b)).
Proof.
  intros Hr He Hds Hk Hab Ha. pose proof Hab as (V & N & K & L). unfold sc_clustering. rewrite <- (same_init a b), <- N, <- K, <- (ps_check HP _ _ Hds), <- (ps_num HP _ _ Hds) by done. cbv zeta.
  repeat match goal with
  | |- rM _ _ (if decide ?x then (let* ec := make_error_msg _ _ _ _ in _) else _) _ => destruct (decide x) as [?|?Hx]; [rm_step; apply rM_ret; by split|]
  | |- rM _ _ (if ?x then (let* ec := make_error_msg _ _ _ _ in _) else _) _ => destruct x; [rm_step; apply rM_ret; by split|]
  end.
  eapply (rM_bind never eq); [by apply sm_check_cluster_options| |done|done]. intros ec ? <-. destruct (decide (ec <> ER_OK)); [apply rM_ret; by split|].
  cbn [set_radii o_version o_size o_num_types o_tcons o_len_tlabels o_tlabels o_seed o_len_prim o_prim o_pum o_sum o_srad o_srad_val o_prad o_prad_val o_2rad o_2rad_val o_batch].
  assert (op RR (seed_radius o) (seed_radius (set_radii o x y z))) as Hs. { apply radius_arg_same. split; [done|]. exact (proj1 Hr). }
  destruct (decide (c_k a <> 0)); [lia|]. destruct (decide (o_seed o = SM_BATCHES)) as [Es|Es].
  { eapply rM_bind; [by apply sm_nng_clustering_batches| |rm_go|rm_go]. intros [e1 c1] [e2 c2] [E1 C]. cbn [fst snd] in *. apply rM_ret. split; [done|]. simpl. by apply C. }
  eapply (rM_bind (fun x => x.1 <> ER_OK) (pr eq dgr)); [rm_go| |rm_go|rm_go].
  intros [e1 g] [e2 h] [E1 G]. cbn [fst snd] in *. subst e2. destruct (decide (e1 <> ER_OK)); [apply rM_ret; by split|].
  eapply rM_bind; [by apply sm_make_clustering_from_nng; [done|done|done|apply Hk| |]| |rm_go|rm_go].
  intros [[e2 c1] g1] [[e3 c2] g2] [E2 C]. cbn [fst snd] in *. subst e3.
  eapply (rM_bind never dgr); [apply sm_free_digraph| |done|done]. intros _ _ _. apply rM_ret. split; [done|]. simpl. exact C.
Qed.
End Pure.
