(** Failures of the search functions are not lost. Two things are followed through
    every function: whether a search has failed, and what the result says about it. *)

From stdpp Require Import prelude list.
From Coq Require Import NArith ZArith.
From Verif Require Import Base World Mem Float Options Spi Dist Digraph Nng Seeds Batch NngClustering Hier Util.

(** The provider's private state is left alone. *)
Definition keepM {A} (m : M A) : Prop := forall w a w', m w = Ok (a, w') -> w_tick w' = w_tick w.

Lemma km_ret {A} (a : A) : keepM (Mret a).
Proof. by intros w a' w' [= <- <-]. Qed.
Lemma km_bad {A} u : keepM (@Mbad A u).
Proof. intros w a w' [=]. Qed.
Lemma km_lift {A} (m : R A) : keepM (lift m).
Proof. intros w a w' E. unfold lift in E. destruct m; [|done]. by injection E as <- <-. Qed.
Lemma km_bind {A B} (m : M A) (k : A -> M B) : keepM m -> (forall a, keepM (k a)) -> keepM (Mbind m k).
Proof. intros Hm Hk w b w' E. unfold Mbind in E. destruct (m w) as [[a w1]|] eqn:E1; [|done]. rewrite (Hk _ _ _ _ E). by eapply Hm. Qed.
Lemma km_get : keepM (fun w => Ok (w, w)).
Proof. by intros w a w' [= <- <-]. Qed.
Lemma km_malloc n : keepM (malloc n).
Proof. intros w a w' E. unfold malloc in E. by destruct (w_fail w (w_next w)); injection E as <- <-. Qed.
Lemma km_free p : keepM (free p).
Proof. intros w a w' E. unfold free in E. destruct p as [b|]; [|by injection E as <- <-]. destruct (decide (b ∈ w_live w)); [|done]. by injection E as <- <-. Qed.
Lemma km_realloc p n : keepM (realloc p n).
Proof. intros w a w' E. unfold realloc in E. destruct p as [b|]; [|by eapply km_malloc]. destruct (decide (b ∈ w_live w)); [|done]. by destruct (w_fail w (w_next w)); injection E as <- <-. Qed.
Lemma km_set_err e : keepM (set_err e).
Proof. by intros w a w' [= <- <-]. Qed.
Lemma km_forM {S} n i (s : S) f : (forall j s, keepM (f j s)) -> keepM (forM n i s f).
Proof.
  intros Hf. unfold forM. revert i s. induction n as [|n IH]; intros i s w a w' E; simpl in E.
  - by injection E as <- <-.
  - destruct (f i s w) as [[s1 w1]|] eqn:E1; simpl in E; [|done]. rewrite (IH _ _ _ _ _ E). by eapply Hf.
Qed.
Lemma km_loopM {S T} n i (s : S) (f : nat -> S -> M (S + T)) : (forall j s, keepM (f j s)) -> keepM (loopM n i s f).
Proof.
  intros Hf. unfold loopM. revert i s. induction n as [|n IH]; intros i s w a w' E; simpl in E.
  - by injection E as <- <-.
  - destruct (f i s w) as [[[s1|t1] w1]|] eqn:E1; simpl in E; [| |done].
    + rewrite (IH (Datatypes.S i) s1 w1 a w' E). by eapply Hf.
    + injection E as <- <-. by eapply Hf.
Qed.

Create HintDb keep.
Global Hint Resolve km_ret km_bad km_lift km_get km_malloc km_free km_realloc km_set_err : keep.

Ltac keep_step :=
  match goal with
  | |- forall _, _ => intro
  | |- keepM (let x := _ in _) => cbv zeta
  | |- keepM (Mbind _ _) => apply km_bind
  | |- keepM (forM _ _ _ _) => apply km_forM
  | |- keepM (loopM _ _ _ _) => apply km_loopM
  | |- keepM _ => solve [eauto 1 with keep nocore]
  | |- keepM (match ?x with _ => _ end) => destruct x
  | |- keepM (match ?x with _ => _ end _) => destruct x
  end.
Ltac keep_all := repeat keep_step.
Class Kee (T : Type) := kee : T -> Prop.
Global Instance Kee_fun {A B} `{Kee B} : Kee (A -> B) | 10 := fun f => forall a, kee (f a).
Global Instance Kee_M {A} : Kee (M A) | 0 := fun m => keepM m.
Ltac is_keep f := let T := eval cbv [kee Kee_fun Kee_M] in (kee f) in exact T.

Lemma km_make_error__ : ltac:(is_keep make_error__). Proof. unfold make_error__. keep_all. Qed.
Global Hint Resolve km_make_error__ : keep.
Lemma km_make_error : ltac:(is_keep make_error). Proof. unfold make_error. keep_all. Qed.
Lemma km_make_error_msg : ltac:(is_keep make_error_msg). Proof. unfold make_error_msg. keep_all. Qed.
Lemma km_reset_error : ltac:(is_keep reset_error). Proof. unfold reset_error. keep_all. Qed.
Lemma km_malloc_arr A n : keepM (malloc_arr A n). Proof. unfold malloc_arr. keep_all. Qed.
Lemma km_calloc_arr {A} n (x : A) : keepM (calloc_arr n x). Proof. unfold calloc_arr. keep_all. Qed.
Lemma km_free_arr {A} (p : option (arr A)) : keepM (free_arr p). Proof. unfold free_arr. keep_all. Qed.
Lemma km_realloc_arr {A} (p : option (arr A)) n : keepM (realloc_arr p n). Proof. unfold realloc_arr. keep_all. Qed.
Global Hint Resolve km_make_error km_make_error_msg km_reset_error km_malloc_arr km_calloc_arr km_free_arr km_realloc_arr : keep.

Lemma km_check_cluster_options : ltac:(is_keep check_cluster_options). Proof. unfold check_cluster_options. keep_all. Qed.
Global Hint Resolve km_check_cluster_options : keep.
Lemma km_free_digraph : ltac:(is_keep free_digraph). Proof. unfold free_digraph. keep_all. Qed.
Global Hint Resolve km_free_digraph : keep.
Lemma km_init_digraph cfg : ltac:(is_keep (init_digraph cfg)). Proof. unfold init_digraph. keep_all. Qed.
Global Hint Resolve km_init_digraph : keep.
Lemma km_empty_digraph cfg : ltac:(is_keep (empty_digraph cfg)). Proof. unfold empty_digraph. keep_all. Qed.
Global Hint Resolve km_empty_digraph : keep.
Lemma km_change_arc_storage cfg : ltac:(is_keep (change_arc_storage cfg)). Proof. unfold change_arc_storage. keep_all. Qed.
Global Hint Resolve km_change_arc_storage : keep.
Lemma km_delete_loops cfg : ltac:(is_keep (delete_loops cfg)). Proof. unfold delete_loops. keep_all. Qed.
Global Hint Resolve km_delete_loops : keep.
Lemma km_digraph_union_and_delete cfg : ltac:(is_keep (digraph_union_and_delete cfg)). Proof. unfold digraph_union_and_delete. keep_all. Qed.
Global Hint Resolve km_digraph_union_and_delete : keep.
Lemma km_digraph_difference cfg : ltac:(is_keep (digraph_difference cfg)). Proof. unfold digraph_difference. keep_all. Qed.
Global Hint Resolve km_digraph_difference : keep.
Lemma km_digraph_transpose cfg : ltac:(is_keep (digraph_transpose cfg)). Proof. unfold digraph_transpose. keep_all. Qed.
Global Hint Resolve km_digraph_transpose : keep.
Lemma km_adjacency_product cfg : ltac:(is_keep (adjacency_product cfg)). Proof. unfold adjacency_product. keep_all. Qed.
Global Hint Resolve km_adjacency_product : keep.
Lemma km_finish_nng cfg : ltac:(is_keep (finish_nng cfg)). Proof. unfold finish_nng. keep_all. Qed.
Global Hint Resolve km_finish_nng : keep.
Lemma km_free_tc : ltac:(is_keep free_tc). Proof. unfold free_tc. keep_all. Qed.
Global Hint Resolve km_free_tc : keep.
Lemma km_get_type_count : ltac:(is_keep get_type_count). Proof. unfold get_type_count. keep_all. Qed.
Global Hint Resolve km_get_type_count : keep.
Lemma km_free_dgs : ltac:(is_keep free_dgs). Proof. unfold free_dgs. keep_all. Qed.
Global Hint Resolve km_free_dgs : keep.
Lemma km_assign_by_nng cfg : ltac:(is_keep (assign_by_nng cfg)). Proof. unfold assign_by_nng. keep_all. Qed.
Global Hint Resolve km_assign_by_nng : keep.
Lemma km_add_seed cfg : ltac:(is_keep (add_seed cfg)). Proof. unfold add_seed. keep_all. Qed.
Global Hint Resolve km_add_seed : keep.
Lemma km_free_sort_result : ltac:(is_keep free_sort_result). Proof. unfold free_sort_result. keep_all. Qed.
Global Hint Resolve km_free_sort_result : keep.
Lemma km_sort_by_inwards cfg : ltac:(is_keep (sort_by_inwards cfg)). Proof. unfold sort_by_inwards. keep_all. Qed.
Global Hint Resolve km_sort_by_inwards : keep.
Lemma km_findseeds_lexical cfg : ltac:(is_keep (findseeds_lexical cfg)). Proof. unfold findseeds_lexical. keep_all. Qed.
Global Hint Resolve km_findseeds_lexical : keep.
Lemma km_inwards_step cfg : ltac:(is_keep (inwards_step cfg)). Proof. unfold inwards_step. keep_all. Qed.
Global Hint Resolve km_inwards_step : keep.
Lemma km_findseeds_inwards cfg : ltac:(is_keep (findseeds_inwards cfg)). Proof. unfold findseeds_inwards. keep_all. Qed.
Global Hint Resolve km_findseeds_inwards : keep.
Lemma km_exclusion_graph cfg : ltac:(is_keep (exclusion_graph cfg)). Proof. unfold exclusion_graph. keep_all. Qed.
Global Hint Resolve km_exclusion_graph : keep.
Lemma km_exclusion_step cfg : ltac:(is_keep (exclusion_step cfg)). Proof. unfold exclusion_step. keep_all. Qed.
Global Hint Resolve km_exclusion_step : keep.
Lemma km_findseeds_exclusion cfg : ltac:(is_keep (findseeds_exclusion cfg)). Proof. unfold findseeds_exclusion. keep_all. Qed.
Global Hint Resolve km_findseeds_exclusion : keep.
Lemma km_find_seeds cfg : ltac:(is_keep (find_seeds cfg)). Proof. unfold find_seeds. keep_all. Qed.
Global Hint Resolve km_find_seeds : keep.
Lemma km_check_capacity : ltac:(is_keep check_capacity). Proof. unfold check_capacity. keep_all. Qed.
Global Hint Resolve km_check_capacity : keep.
Lemma km_empty_cl_stack : ltac:(is_keep empty_cl_stack). Proof. unfold empty_cl_stack. keep_all. Qed.
Global Hint Resolve km_empty_cl_stack : keep.
Lemma km_init_cl_stack cfg : ltac:(is_keep (init_cl_stack cfg)). Proof. unfold init_cl_stack. keep_all. Qed.
Global Hint Resolve km_init_cl_stack : keep.
Lemma km_malloc_es : ltac:(is_keep malloc_es). Proof. unfold malloc_es. keep_all. Qed.
Global Hint Resolve km_malloc_es : keep.
Lemma km_free_es : ltac:(is_keep free_es). Proof. unfold free_es. keep_all. Qed.
Global Hint Resolve km_free_es : keep.
Lemma km_check_clustering cfg : ltac:(is_keep (check_clustering cfg)). Proof. unfold check_clustering. keep_all. Qed.
Global Hint Resolve km_check_clustering : keep.

(** ** Results that tell of a failure *)

Definition resM {A} (X : A -> Prop) (m : M A) : Prop := forall w a w', m w = Ok (a, w') -> X a.

(** ** Rules *)

Lemma res_ret {A} (X : A -> Prop) a : X a -> resM X (Mret a).
Proof. by intros H w a' w' [= <- <-]. Qed.
Lemma res_bad {A} (X : A -> Prop) u : resM X (Mbad u).
Proof. intros w a w' [=]. Qed.
Lemma res_skip {A B} (X : B -> Prop) (m : M A) k : (forall a, resM X (k a)) -> resM X (Mbind m k).
Proof. intros H w a w' E. unfold Mbind in E. destruct (m w) as [[x w1]|]; [|done]. by eapply H. Qed.
Lemma res_bind {A B} (Y : A -> Prop) (X : B -> Prop) (m : M A) k : resM Y m -> (forall a, Y a -> resM X (k a)) -> resM X (Mbind m k).
Proof. intros Hm H w a w' E. unfold Mbind in E. destruct (m w) as [[x w1]|] eqn:E1; [|done]. eapply H, E. by eapply Hm. Qed.
Lemma res_error ec f l : resM (fun e => e = ec) (make_error ec f l).
Proof. by intros w a w' [= <- <-]. Qed.
Lemma res_error_msg ec s f l : resM (fun e => e = ec) (make_error_msg ec s f l).
Proof. by intros w a w' [= <- <-]. Qed.
Lemma res_assoc {A B C} (X : C -> Prop) (m : M A) (k : A -> M B) (k' : B -> M C) : resM X (Mbind m (fun a => Mbind (k a) k')) -> resM X (Mbind (Mbind m k) k').
Proof. intros H w a w' E. apply (H w a w'). unfold Mbind in *. by destruct (m w) as [[x w1]|]. Qed.
Lemma res_retl {A B} (X : B -> Prop) (a : A) (k : A -> M B) : resM X (k a) -> resM X (Mbind (Mret a) k).
Proof. done. Qed.


Definition leaves {S T} (X : T -> Prop) (r : S + T) : Prop := match r with inl _ => False | inr t => X t end.

Section Rules.
(** Nothing has gone wrong yet. *)
Context (good : world -> Prop).

Definition keepG {A} (m : M A) : Prop := forall w a w', m w = Ok (a, w') -> good w -> good w'.
(** If something goes wrong in [m], its result is in [X]. *)
Definition repG {A} (X : A -> Prop) (m : M A) : Prop := forall w a w', m w = Ok (a, w') -> good w -> good w' \/ X a.

Lemma rep_keep {A} (X : A -> Prop) m : keepG m -> repG X m.
Proof. intros H w a w' E F. left. by eapply H. Qed.
Lemma rep_ret {A} (X : A -> Prop) a : repG X (Mret a).
Proof. intros w a' w' [= <- <-] F. by left. Qed.
Lemma rep_bad {A} (X : A -> Prop) u : repG X (Mbad u).
Proof. intros w a w' [=]. Qed.
Lemma rep_res {A} (X : A -> Prop) m : resM X m -> repG X m.
Proof. intros H w a w' E F. right. by eapply H. Qed.
Lemma rep_mono {A} (X Y : A -> Prop) m : repG X m -> (forall a, X a -> Y a) -> repG Y m.
Proof. intros H HX w a w' E F. destruct (H _ _ _ E F); auto. Qed.
Lemma rep_kbind {A B} (X : B -> Prop) (m : M A) k : keepG m -> (forall a, repG X (k a)) -> repG X (Mbind m k).
Proof. intros Hm H w a w' E F. unfold Mbind in E. destruct (m w) as [[x w1]|] eqn:E1; [|done]. eapply H; [done|]. by eapply Hm. Qed.
Lemma rep_bind {A B} (Y : A -> Prop) (X : B -> Prop) (m : M A) k : repG Y m -> (forall a, Y a -> resM X (k a)) -> (forall a, repG X (k a)) -> repG X (Mbind m k).
Proof.
  intros Hm HY H w a w' E F. unfold Mbind in E. destruct (m w) as [[x w1]|] eqn:E1; [|done]. destruct (Hm _ _ _ E1 F) as [Hf|Hy].
  - by eapply H.
  - right. by eapply HY.
Qed.
Lemma rep_assoc {A B C} (X : C -> Prop) (m : M A) (k : A -> M B) (k' : B -> M C) : repG X (Mbind m (fun a => Mbind (k a) k')) -> repG X (Mbind (Mbind m k) k').
Proof. intros H w a w' E. apply (H w a w'). unfold Mbind in *. by destruct (m w) as [[x w1]|]. Qed.
Lemma rep_retl {A B} (X : B -> Prop) (a : A) (k : A -> M B) : repG X (k a) -> repG X (Mbind (Mret a) k).
Proof. done. Qed.
Lemma rep_loop {S T} (X : T -> Prop) n i (s : S) (f : nat -> S -> M (S + T)) : (forall j s, repG (leaves X) (f j s)) -> repG (leaves X) (loopM n i s f).
Proof.
  intros Hf. unfold loopM. revert i s. induction n as [|n IH]; intros i s w a w' E F; simpl in E.
  - injection E as <- <-. auto.
  - destruct (f i s w) as [[[s1|t1] w1]|] eqn:E1; simpl in E; [| |done].
    + destruct (Hf _ _ _ _ _ E1 F) as [F1|[]]. by apply (IH (Datatypes.S i) s1 w1 a w' E).
    + injection E as <- <-. destruct (Hf _ _ _ _ _ E1 F); auto.
Qed.

End Rules.

Section Report.
(** Does the provider's private state record a failure? *)
Context (failed : nat -> bool).
Definition unfailed (w : world) : Prop := failed (w_tick w) = false.
(** If a search fails in [m], its result is in [X]. *)
Notation repM := (repG unfailed).
Lemma keep_unfailed {A} (m : M A) : keepM m -> keepG unfailed m.
Proof. intros Hm w a w' E F. unfold unfailed in *. by rewrite (Hm _ _ _ E). Qed.

(** What a provider does that records its failures. Closing a nearest neighbour
    search object is not counted. *)
Record records (P : provider) : Prop := {
  rc_matrix : forall d q, repM (fun r => r = None) (p_matrix P d q);
  rc_rows : forall d q c, repM (fun r => r = None) (p_rows P d q c);
  rc_mx_init : forall d q, repM (fun r => r = None) (p_mx_init P d q);
  rc_mx_get : forall o q, repM (fun r => r = None) (p_mx_get P o q);
  rc_mx_close : forall o, repM (fun r => r = false) (p_mx_close P o);
  rc_nn_init : forall d q, repM (fun r => r = None) (p_nn_init P d q);
  rc_nn_search : forall o q k r, repM (fun r => r = None) (p_nn_search P o q k r);
  rc_nn_close : forall o, repM (fun _ => False) (p_nn_close P o)
}.

Definition says {A} (x : ecode * A) : Prop := x.1 = ER_DIST_SEARCH_ERROR.
Definition says3 {A B} (x : ecode * A * B) : Prop := x.1.1 = ER_DIST_SEARCH_ERROR.
Definition says4 {A B C} (x : ecode * A * B * C) : Prop := x.1.1.1 = ER_DIST_SEARCH_ERROR.
Definition says5 {A B C D} (x : ecode * A * B * C * D) : Prop := x.1.1.1.1 = ER_DIST_SEARCH_ERROR.
Definition says_opt {A} (x : option ecode * A) : Prop := x.1 = Some ER_DIST_SEARCH_ERROR.
Definition says_none {A B} (x : ecode * option A * B) : Prop := x.1.1 = ER_DIST_SEARCH_ERROR /\ x.1.2 = None.

Context (cfg : config) (P : provider) (HP : records P).
Definition hr_matrix := rc_matrix _ HP. Definition hr_rows := rc_rows _ HP. Definition hr_mx_init := rc_mx_init _ HP. Definition hr_mx_get := rc_mx_get _ HP.
Definition hr_mx_close := rc_mx_close _ HP. Definition hr_nn_init := rc_nn_init _ HP. Definition hr_nn_search := rc_nn_search _ HP. Definition hr_nn_close := rc_nn_close _ HP.

Create HintDb rep.
Hint Resolve hr_matrix hr_rows hr_mx_init hr_mx_get hr_mx_close hr_nn_init hr_nn_search hr_nn_close : rep.

Ltac said :=
  cbv beta in * |-;
  repeat match goal with
  | H : False |- _ => destruct H
  | H : ~ (ER_DIST_SEARCH_ERROR <> ER_OK) |- _ => exfalso; by apply H
  | H : ER_DIST_SEARCH_ERROR = ER_OK |- _ => discriminate H
  | H : leaves _ ?r |- _ => destruct r as [?|?]; simpl in H
  | H : says ?r |- _ => destruct r; unfold says in H; simpl in H
  | H : says3 ?r |- _ => destruct r as [[? ?] ?]; unfold says3 in H; simpl in H
  | H : says4 ?r |- _ => destruct r as [[[? ?] ?] ?]; unfold says4 in H; simpl in H
  | H : says5 ?r |- _ => destruct r as [[[[? ?] ?] ?] ?]; unfold says5 in H; simpl in H
  | H : says_opt ?r |- _ => destruct r; unfold says_opt in H; simpl in H
  | H : says_none ?r |- _ => destruct r as [[? ?] ?]; unfold says_none in H; simpl in H; destruct H
  | H : Some ?x = Some _ |- _ => injection H as H
  | H : ?x = Some ER_DIST_SEARCH_ERROR |- _ => is_var x; subst x
  | H : ?x = ER_DIST_SEARCH_ERROR |- _ => is_var x; subst x
  | H : ?x = None |- _ => is_var x; subst x
  | H : ?x = false |- _ => is_var x; subst x
  | H : ?x = ER_OK |- _ => is_var x; subst x
  end.
Ltac res_step :=
  match goal with
  | |- forall _, _ => intro; said
  | |- resM _ (if negb false then _ else _) => cbn [negb]
  | |- resM _ (let x := _ in _) => cbv zeta
  | |- resM _ (Mbind (Mbind _ _) _) => apply res_assoc
  | |- resM _ (Mbind (Mret _) _) => apply res_retl
  | |- resM _ (Mbind (make_error _ _ _) _) => eapply res_bind; [apply res_error|]
  | |- resM _ (Mbind (make_error_msg _ _ _ _) _) => eapply res_bind; [apply res_error_msg|]
  | |- resM _ (Mbind (match ?x with _ => _ end) _) => destruct x; said; try done
  | |- resM _ (Mbind _ _) => apply res_skip
  | |- resM _ (Mret _) => apply res_ret; first [reflexivity | assumption | done]
  | |- resM _ (Mbad _) => apply res_bad
  | |- resM _ (match ?x with _ => _ end) => destruct x; said; try done
  | |- resM _ (match ?x with _ => _ end _) => destruct x; said; try done
  end.
Ltac rep_step :=
  match goal with
  | |- forall _, _ => intro; said
  | |- repM _ (let x := _ in _) => cbv zeta
  | |- repM _ (Mbind (Mbind _ _) _) => apply rep_assoc
  | |- repM _ (Mbind (Mret _) _) => apply rep_retl
  | |- repM _ (Mbind (match ?x with _ => _ end) _) => destruct x; said; try done
  | |- repM _ (Mbind (loopM _ _ _ _) _) => first [apply rep_kbind; [apply keep_unfailed; solve [keep_all]|] | eapply rep_bind; [eapply rep_loop; intros; cbv beta; solve [eauto with rep nocore] | |] | eapply (rep_bind _ (leaves (fun _ => True))); [apply rep_loop; intros; cbv beta | |]]
  | |- repM _ (Mbind _ _) => apply rep_kbind; [apply keep_unfailed; solve [eauto 1 with keep nocore]|]
  | |- repM _ (Mbind _ _) => eapply rep_bind; [solve [eauto 1 with rep nocore] | |]
  | |- repM _ (Mret _) => apply rep_ret
  | |- repM _ (Mbad _) => apply rep_bad
  | |- repM _ _ => solve [eauto 1 with rep nocore]
  | |- repM _ (match ?x with _ => _ end) => destruct x; said; try done
  | |- repM _ (match ?x with _ => _ end _) => destruct x; said; try done
  | |- resM _ _ => res_step
  end.
Ltac rep_all := repeat rep_step.

Lemma rp_nn_search o len q k rad outq outnn : repM (fun r => r = None) (nn_search P o len q k rad outq outnn). Proof. unfold nn_search. rep_all.
Qed.
Lemma rp_nn_init d len s : repM (fun r => r = None) (nn_init P d len s). Proof. unfold nn_init. rep_all.
Qed.
Lemma rp_dist_rows d a b c e f : repM (fun r => r = None) (dist_rows P d a b c e f). Proof. unfold dist_rows. rep_all.
Qed.
Lemma rp_dist_matrix d a b c : repM (fun r => r = None) (dist_matrix P d a b c). Proof. unfold dist_matrix. rep_all.
Qed.
Lemma rp_mx_init d a b : repM (fun r => r = None) (mx_init P d a b). Proof. unfold mx_init. rep_all.
Qed.
Lemma rp_max_dist o a b c d : repM (fun r => r = None) (max_dist P o a b c d). Proof. unfold max_dist. rep_all.
Qed.
Hint Resolve rp_nn_search rp_nn_init rp_dist_rows rp_dist_matrix rp_mx_init rp_max_dist : rep.

Lemma rp_make_nng_from_search_object o n lenq q k rad outq : repM says4 (make_nng_from_search_object cfg P o n lenq q k rad outq).
Proof. unfold make_nng_from_search_object. rep_all.
Qed.
Hint Resolve rp_make_nng_from_search_object : rep.
Lemma rp_make_nng ds n lens s lenq q k rad outq : repM says4 (make_nng cfg P ds n lens s lenq q k rad outq).
Proof. unfold make_nng. rep_all.
Qed.
Hint Resolve rp_make_nng : rep.
Lemma rp_get_nng_with_size_constraint ds n size lp prim rad : repM says (get_nng_with_size_constraint cfg P ds n size lp prim rad).
Proof. unfold get_nng_with_size_constraint. rep_all.
Qed.
Hint Resolve rp_get_nng_with_size_constraint : rep.

Lemma rp_type_step ds n tcons tc prim rad i s : repM (leaves says) (type_step cfg P ds n tcons tc prim rad i s).
Proof. unfold type_step. rep_all.
Qed.
Hint Resolve rp_type_step : rep.
Lemma rp_add_general_nn ds n size sum prim rad nq seedable out : repM says (add_general_nn cfg P ds n size sum prim rad nq seedable out).
Proof. unfold add_general_nn. rep_all.
Qed.
Hint Resolve rp_add_general_nn : rep.
Lemma rp_get_nng_with_type_constraint ds n size nt tcons tl lp prim rad : repM says (get_nng_with_type_constraint cfg P ds n size nt tcons tl lp prim rad).
Proof. unfold get_nng_with_type_constraint. rep_all.
Qed.
Hint Resolve rp_get_nng_with_type_constraint : rep.
Lemma rp_estimate_avg_seed_dist ds sr nng size : repM says (estimate_avg_seed_dist P ds sr nng size).
Proof. unfold estimate_avg_seed_dist. rep_all.
Qed.
Hint Resolve rp_estimate_avg_seed_dist : rep.
Lemma rp_assign_by_nn_search cl o num ta rad : repM says3 (assign_by_nn_search P cl o num ta rad).
Proof. unfold assign_by_nn_search. rep_all.
Qed.
Hint Resolve rp_assign_by_nn_search : rep.
Lemma rp_close_opt o : repM (fun _ => False) (close_opt P o).
Proof. unfold close_opt. rep_all.
Qed.
Hint Resolve rp_close_opt : rep.
Lemma rp_assign_stage cl um oa os num ta rad : repM says3 (assign_stage P cl um oa os num ta rad).
Proof. unfold assign_stage. rep_all.
Qed.
Hint Resolve rp_assign_stage : rep.
Lemma rp_assign_rest cl total um1 rad1 lp prim rad2 sn oa os : repM says (assign_rest cfg P cl total um1 rad1 lp prim UM_IGNORE rad2 sn oa os).
Proof. unfold assign_rest. rep_all.
Qed.
Hint Resolve rp_assign_rest : rep.
Lemma rp_assign_search ds cl sr nas total um1 rad1 lp prim rad2 sn : repM says (assign_search cfg P ds cl sr nas total um1 rad1 lp prim UM_IGNORE rad2 sn).
Proof. unfold assign_search. rep_all.
Qed.
Hint Resolve rp_assign_search : rep.
Lemma rp_make_nng_clusters_from_seeds cl ds sr nng ord um1 rad1 lp prim rad2 : repM says3 (make_nng_clusters_from_seeds cfg P cl ds sr nng ord um1 rad1 lp prim UM_IGNORE rad2).
Proof. unfold make_nng_clusters_from_seeds. rep_all.
Qed.
Hint Resolve rp_make_nng_clusters_from_seeds : rep.
Lemma rp_batch_iter o n size ign rad prim bs st : repM (leaves says_opt) (batch_iter cfg P o n size ign rad prim bs st).
Proof. unfold batch_iter. rep_all.
Qed.
Hint Resolve rp_batch_iter : rep.
Lemma rp_run_batches cl o size ign rad prim bs bi out a : repM says5 (run_batches cfg P cl o size ign rad prim bs bi out a).
Proof. unfold run_batches. rep_all.
Qed.
Hint Resolve rp_run_batches : rep.
Lemma rp_nng_clustering_batches cl ds size um rad lp prim bs : repM says (nng_clustering_batches cfg P cl ds size um rad lp prim bs).
Proof. unfold nng_clustering_batches. rep_all.
Qed.
Hint Resolve rp_nng_clustering_batches : rep.
Lemma rp_cluster_seeds cl ds nng o sr r1 r2 : o_sum o = UM_IGNORE -> repM says3 (cluster_seeds cfg P cl ds nng o sr r1 r2).
Proof. intros Ho. unfold cluster_seeds. rewrite Ho. rep_all.
Qed.
Lemma rp_make_clustering_from_nng cl ds nng o : o_sum o = UM_IGNORE -> repM says3 (make_clustering_from_nng cfg P cl ds nng o).
Proof. intros Ho. pose proof (fun cl ds nng sr r1 r2 => rp_cluster_seeds cl ds nng o sr r1 r2 Ho). unfold make_clustering_from_nng. rep_all.
Qed.
Lemma rp_sc_clustering ds o cl : o_sum o = UM_IGNORE -> repM says (sc_clustering cfg P ds (Some o) cl).
Proof. intros Ho. pose proof (fun cl ds nng => rp_make_clustering_from_nng cl ds nng o Ho). unfold sc_clustering. rep_all.
Qed.

Context (qs : world -> list (nat * double) -> list (nat * double)) (log2cap : nat -> nat -> nat).
Lemma rp_centers_iter o cm s : repM (leaves (fun r => r = None)) (centers_iter P o cm s).
Proof. unfold centers_iter. rep_all.
Qed.
Hint Resolve rp_centers_iter : rep.
Lemma rp_find_centers it ds h : repM says4 (find_centers cfg P it ds h).
Proof. unfold find_centers. rep_all.
Qed.
Hint Resolve rp_find_centers : rep.
Lemma rp_populate_edge_lists it ds c1 c2 h : repM says (populate_edge_lists P qs it ds c1 c2 h).
Proof. unfold populate_edge_lists. rep_all.
Qed.
Hint Resolve rp_populate_edge_lists : rep.
Lemma rp_break_cluster it ds k batch h : repM says_none (break_cluster cfg P qs it ds k batch h).
Proof. unfold break_cluster. rep_all.
Qed.
Hint Resolve rp_break_cluster : rep.
Lemma rp_run_step ds k batch st : repM (leaves says) (run_step cfg P qs ds k batch st).
Proof. unfold run_step. rep_all.
Qed.
Hint Resolve rp_run_step : rep.
Lemma rp_hi_run cl ds k batch s h : repM says4 (hi_run cfg P qs cl ds k batch s h).
Proof. unfold hi_run. rep_all.
Qed.
Hint Resolve rp_hi_run : rep.
Lemma rp_hierarchical_clustering ds k batch cl : repM says (hierarchical_clustering cfg P qs log2cap ds k batch cl).
Proof. unfold hierarchical_clustering. rep_all.
Qed.
Lemma rp_dist_stats ds k sz ptr st d s : repM (leaves (fun _ => True)) (dist_stats P ds k sz ptr st d s).
Proof. unfold dist_stats. apply rep_loop. intros i x. cbv beta. rep_all.
Qed.
Hint Resolve rp_dist_stats : rep.
Lemma rp_get_clustering_stats ds cl out : repM says (get_clustering_stats cfg P ds cl out).
Proof. unfold get_clustering_stats. rep_all.
Qed.
End Report.
