(** Failing allocations in scc_hierarchical_clustering, scc_check_clustering and
    scc_get_clustering_stats are reported. *)

From stdpp Require Import prelude list.
From Coq Require Import NArith ZArith.
From Verif Require Import Base World Mem Float Options Spi Dist Hier Util Report.

(** The allocations of a run have the numbers from [w_next w] to [w_next w' - 1]. *)
Definition oom_run {A} (m : M A) (w : world) (a : A) (w' : world) : Prop :=
  m w = Ok (a, w') /\ exists b, w_next w <= b < w_next w' /\ w_fail w b = true.
Definition oom_code (ec : ecode) : Prop := ec = ER_NO_MEMORY \/ ec = ER_DIST_SEARCH_ERROR.
(** The search functions report failing allocations of theirs. *)
Definition oom_reported {A} (X : A -> Prop) (m : M A) : Prop := forall w a w', m w = Ok (a, w') ->
  w_fail w' = w_fail w /\ w_next w <= w_next w' /\ ((forall b, w_next w <= b < w_next w' -> w_fail w b = false) \/ X a).
Record provider_reports (P : provider) : Prop := {
  po_matrix : forall d q, oom_reported (fun r => r = None) (p_matrix P d q);
  po_rows : forall d q c, oom_reported (fun r => r = None) (p_rows P d q c);
  po_mx_init : forall d q, oom_reported (fun r => r = None) (p_mx_init P d q);
  po_mx_get : forall o q, oom_reported (fun r => r = None) (p_mx_get P o q);
  po_mx_close : forall o, oom_reported (fun r => r = false) (p_mx_close P o)
}.

Section Oom.
Context (f : nat -> bool) (s0 : nat).
Definition nofail (w : world) : Prop := w_fail w = f /\ s0 <= w_next w /\ forall b, s0 <= b < w_next w -> f b = false.
Notation repM := (repG nofail).
Notation keepM := (keepG nofail).

Lemma oom_rep {A} (X : A -> Prop) m : oom_reported X m -> repM X m.
Proof.
  intros H w a w' E (F1 & F2 & F3). destruct (H _ _ _ E) as (E1 & E2 & [E3|?]); [left|by right]. unfold nofail. splits; [congruence|lia|].
  intros b Hb. destruct (decide (b < w_next w)); [apply F3; lia|]. rewrite <- F1. apply E3. lia.
Qed.

Lemma ko_ret {A} (a : A) : keepM (Mret a).
Proof. by intros w a' w' [= <- <-]. Qed.
Lemma ko_bad {A} u : keepM (@Mbad A u).
Proof. intros w a w' [=]. Qed.
Lemma ko_lift {A} (m : R A) : keepM (lift m).
Proof. intros w a w' E. unfold lift in E. destruct m; [|done]. by injection E as <- <-. Qed.
Lemma ko_bind {A B} (m : M A) (k : A -> M B) : keepM m -> (forall a, keepM (k a)) -> keepM (Mbind m k).
Proof. intros Hm Hk w b w' E F. unfold Mbind in E. destruct (m w) as [[a w1]|] eqn:E1; [|done]. eapply Hk; [done|]. by eapply Hm. Qed.
Lemma ko_get : keepM (fun w => Ok (w, w)).
Proof. by intros w a w' [= <- <-]. Qed.
Lemma ko_free p : keepM (free p).
Proof. intros w a w' E. unfold free in E. destruct p as [b|]; [|by injection E as <- <-]. destruct (decide (b ∈ w_live w)); [|done]. by injection E as <- <-. Qed.
Lemma ko_set_err e : keepM (set_err e).
Proof. by intros w a w' [= <- <-]. Qed.

Create HintDb okeep.
Hint Resolve ko_ret ko_bad ko_lift ko_get ko_free ko_set_err : okeep.
Ltac keep_step :=
  match goal with
  | |- forall _, _ => intro
  | |- keepM (let x := _ in _) => cbv zeta
  | |- keepM (Mbind _ _) => apply ko_bind
  | |- keepM _ => solve [eauto 1 with okeep nocore]
  | |- keepM (match ?x with _ => _ end) => destruct x
  | |- keepM (match ?x with _ => _ end _) => destruct x
  end.
Ltac keep_all := repeat keep_step.
Lemma ko_make_error__ ec m fl l : keepM (make_error__ ec m fl l). Proof. unfold make_error__. keep_all. Qed.
Hint Resolve ko_make_error__ : okeep.
Lemma ko_make_error ec fl l : keepM (make_error ec fl l). Proof. unfold make_error. keep_all. Qed.
Lemma ko_make_error_msg ec s fl l : keepM (make_error_msg ec s fl l). Proof. unfold make_error_msg. keep_all. Qed.
Lemma ko_free_arr {A} (p : option (arr A)) : keepM (free_arr p). Proof. unfold free_arr. keep_all. Qed.
Lemma ko_free_es e : keepM (free_es e). Proof. unfold free_es. keep_all. Qed.
Hint Resolve ko_make_error ko_make_error_msg ko_free_arr ko_free_es : okeep.
Lemma ko_check_cluster_options o n : keepM (check_cluster_options o n). Proof. unfold check_cluster_options. keep_all. Qed.
Hint Resolve ko_check_cluster_options : okeep.

Lemma nofail_step w g e t mo : nofail w -> f (w_next w) = false -> nofail (World (w_fail w) (Datatypes.S (w_next w)) g e t mo).
Proof.
  intros (F1 & F2 & F3) Hf. unfold nofail. splits; simpl; [done|lia|]. intros b Hb. destruct (decide (b = w_next w)) as [->|]; [done|]. apply F3. lia.
Qed.
Lemma ro_malloc n : repM (fun r => r = None) (malloc n).
Proof.
  intros w a w' E F. unfold malloc in E. pose proof F as (F1 & _). rewrite F1 in E. destruct (f (w_next w)) eqn:Hf; injection E as <- <-; [by right|left].
  rewrite <- F1. by apply nofail_step.
Qed.
Lemma ro_realloc p n : repM (fun r => r = None) (realloc p n).
Proof.
  intros w a w' E F. unfold realloc in E. destruct p as [b|]; [|by eapply ro_malloc]. destruct (decide (b ∈ w_live w)); [|done].
  pose proof F as (F1 & _). rewrite F1 in E. destruct (f (w_next w)) eqn:Hf; injection E as <- <-; [by right|left].
  rewrite <- F1. by apply nofail_step.
Qed.

Definition says {A} (x : ecode * A) : Prop := oom_code x.1.
Definition says3 {A B} (x : ecode * A * B) : Prop := oom_code x.1.1.
Definition says4 {A B C} (x : ecode * A * B * C) : Prop := oom_code x.1.1.1.
Definition says_opt {A} (x : ecode * option A) : Prop := oom_code x.1 /\ x.2 = None.
Definition says_none {A B} (x : ecode * option A * B) : Prop := oom_code x.1.1 /\ x.1.2 = None.

Context (cfg : config) (P : provider) (HP : provider_reports P).
Lemma hr_matrix d q : repM (fun r => r = None) (p_matrix P d q). Proof. apply oom_rep, HP. Qed.
Lemma hr_rows d q c : repM (fun r => r = None) (p_rows P d q c). Proof. apply oom_rep, HP. Qed.
Lemma hr_mx_init d q : repM (fun r => r = None) (p_mx_init P d q). Proof. apply oom_rep, HP. Qed.
Lemma hr_mx_get o q : repM (fun r => r = None) (p_mx_get P o q). Proof. apply oom_rep, HP. Qed.
Lemma hr_mx_close o : repM (fun r => r = false) (p_mx_close P o). Proof. apply oom_rep, HP. Qed.

Create HintDb orep.
Hint Resolve hr_matrix hr_rows hr_mx_init hr_mx_get hr_mx_close ro_malloc ro_realloc : orep.

Ltac said :=
  cbv beta in * |-;
  repeat match goal with
  | H : False |- _ => destruct H
  | H : ~ (ER_DIST_SEARCH_ERROR <> ER_OK) |- _ => exfalso; by apply H
  | H : ~ (ER_NO_MEMORY <> ER_OK) |- _ => exfalso; by apply H
  | H : leaves _ ?r |- _ => destruct r as [?|?]; simpl in H
  | H : says ?r |- _ => destruct r; unfold says in H; simpl in H
  | H : says3 ?r |- _ => destruct r as [[? ?] ?]; unfold says3 in H; simpl in H
  | H : says4 ?r |- _ => destruct r as [[[? ?] ?] ?]; unfold says4 in H; simpl in H
  | H : says_opt ?r |- _ => destruct r; unfold says_opt in H; simpl in H; destruct H
  | H : says_none ?r |- _ => destruct r as [[? ?] ?]; unfold says_none in H; simpl in H; destruct H
  | H : oom_code _ |- _ => destruct H
  | H : Some ?x = Some _ |- _ => injection H as H
  | H : ?x = ER_DIST_SEARCH_ERROR |- _ => is_var x; subst x
  | H : ?x = ER_NO_MEMORY |- _ => is_var x; subst x
  | H : ?x = None |- _ => is_var x; subst x
  | H : ?x = false |- _ => is_var x; subst x
  | H : ?x = ER_OK |- _ => is_var x; subst x
  | H : _ = _ |- _ => discriminate H
  end.
Ltac code := first [reflexivity | assumption | done | (unfold says, says3, says4, oom_code; simpl; tauto) | (split; [unfold oom_code; simpl; tauto|reflexivity])].
Ltac res_step :=
  match goal with
  | |- forall _, _ => intro; said
  | |- resM _ (if negb false then _ else _) => cbn [negb]
  | |- resM _ (Mbind (if negb false then _ else _) _) => cbn [negb]
  | |- resM _ (let x := _ in _) => cbv zeta
  | |- resM _ (Mbind (Mbind _ _) _) => apply res_assoc
  | |- resM _ (Mbind (Mret _) _) => apply res_retl; cbv beta iota
  | |- resM _ (Mbind (make_error _ _ _) _) => eapply res_bind; [apply res_error|]
  | |- resM _ (Mbind (make_error_msg _ _ _ _) _) => eapply res_bind; [apply res_error_msg|]
  | |- resM _ (Mbind (match ?x with _ => _ end) _) => destruct x; said; try done
  | |- resM _ (Mbind _ _) => apply res_skip
  | |- resM _ (Mret _) => apply res_ret; code
  | |- resM _ (Mbad _) => apply res_bad
  | |- resM _ (match ?x with _ => _ end) => destruct x; said; try done
  | |- resM _ (match ?x with _ => _ end _) => destruct x; said; try done
  end.
Ltac rep_step :=
  match goal with
  | |- forall _, _ => intro; said
  | |- repM _ (let x := _ in _) => cbv zeta
  | |- repM _ (Mbind (Mbind _ _) _) => apply rep_assoc
  | |- repM _ (Mbind (Mret _) _) => apply rep_retl
  | |- repM _ (Mbind (match ?x with _ => _ end) _) => destruct x; said; try done
  | |- repM _ (Mbind (loopM _ _ _ _) _) => first [eapply rep_bind; [eapply rep_loop; intros; cbv beta; solve [eauto with orep nocore] | |] | eapply (rep_bind _ (leaves (fun _ => True))); [apply rep_loop; intros; cbv beta | |]]
  | |- repM _ (Mbind _ _) => apply rep_kbind; [solve [eauto 1 with okeep nocore]|]
  | |- repM _ (Mbind _ _) => eapply rep_bind; [solve [eauto 1 with orep nocore] | |]
  | |- repM _ (Mret _) => apply rep_ret
  | |- repM _ (Mbad _) => apply rep_bad
  | |- repM _ _ => solve [eauto 1 with orep nocore]
  | |- repM _ _ => apply rep_keep; solve [eauto 1 with okeep nocore]
  | |- repM _ (match ?x with _ => _ end) => destruct x; said; try done
  | |- repM _ (match ?x with _ => _ end _) => destruct x; said; try done
  | |- resM _ _ => res_step
  end.
Ltac rep_all := repeat rep_step.

Lemma ro_malloc_arr A n : repM (fun r => r = None) (malloc_arr A n). Proof. unfold malloc_arr. rep_all. Qed.
Lemma ro_calloc_arr {A} n (x : A) : repM (fun r => r = None) (calloc_arr n x). Proof. unfold calloc_arr. rep_all. Qed.
Lemma ro_realloc_arr {A} (p : option (arr A)) n : repM (fun r => r = None) (realloc_arr p n). Proof. unfold realloc_arr. rep_all. Qed.
Lemma ro_malloc_es n : repM (fun r => r = None) (malloc_es n). Proof. unfold malloc_es. rep_all. Qed.
Hint Resolve ro_malloc_arr ro_calloc_arr ro_realloc_arr ro_malloc_es : orep.
Lemma ro_dist_rows d a b c e g : repM (fun r => r = None) (dist_rows P d a b c e g). Proof. unfold dist_rows. rep_all. Qed.
Lemma ro_dist_matrix d a b c : repM (fun r => r = None) (dist_matrix P d a b c). Proof. unfold dist_matrix. rep_all. Qed.
Lemma ro_mx_init d a b : repM (fun r => r = None) (mx_init P d a b). Proof. unfold mx_init. rep_all. Qed.
Lemma ro_max_dist o a b c d : repM (fun r => r = None) (max_dist P o a b c d). Proof. unfold max_dist. rep_all. Qed.
Hint Resolve ro_dist_rows ro_dist_matrix ro_mx_init ro_max_dist : orep.

Context (qs : world -> list (nat * double) -> list (nat * double)) (log2cap : nat -> nat -> nat).
Lemma ro_centers_iter o cm s : repM (leaves (fun r => r = None)) (centers_iter P o cm s).
Proof. unfold centers_iter. rep_all.
Qed.
Hint Resolve ro_centers_iter : orep.
Lemma ro_find_centers it ds h : repM says4 (find_centers cfg P it ds h).
Proof. unfold find_centers. rep_all.
Qed.
Hint Resolve ro_find_centers : orep.
Lemma ro_populate_edge_lists it ds c1 c2 h : repM says (populate_edge_lists P qs it ds c1 c2 h).
Proof. unfold populate_edge_lists. rep_all.
Qed.
Hint Resolve ro_populate_edge_lists : orep.
Lemma ro_break_cluster it ds k batch h : repM says_none (break_cluster cfg P qs it ds k batch h).
Proof. unfold break_cluster. rep_all.
Qed.
Hint Resolve ro_break_cluster : orep.
Lemma ro_check_capacity s : repM says (check_capacity s).
Proof. unfold check_capacity. rep_all.
Qed.
Hint Resolve ro_check_capacity : orep.
Lemma ro_run_step ds k batch st : repM (leaves says) (run_step cfg P qs ds k batch st).
Proof. unfold run_step. rep_all.
Qed.
Hint Resolve ro_run_step : orep.
Lemma ro_hi_run cl ds k batch s h : repM says4 (hi_run cfg P qs cl ds k batch s h).
Proof. unfold hi_run. rep_all.
Qed.
Hint Resolve ro_hi_run : orep.
Lemma ro_empty_cl_stack n : repM says_opt (empty_cl_stack log2cap n).
Proof. unfold empty_cl_stack. rep_all.
Qed.
Lemma ro_init_cl_stack cl : repM says_opt (init_cl_stack cfg log2cap cl).
Proof. unfold init_cl_stack. rep_all.
Qed.
Hint Resolve ro_empty_cl_stack ro_init_cl_stack : orep.
Lemma ro_hierarchical_clustering ds k batch cl : repM says (hierarchical_clustering cfg P qs log2cap ds k batch cl).
Proof. unfold hierarchical_clustering. rep_all.
Qed.
Lemma ro_check_clustering cl opt out : repM says (check_clustering cfg cl opt out).
Proof. unfold check_clustering. rep_all.
Qed.
Lemma ro_dist_stats ds k sz ptr st d s : repM (leaves (fun _ => True)) (dist_stats P ds k sz ptr st d s).
Proof. unfold dist_stats. apply rep_loop. intros i x. cbv beta. rep_all.
Qed.
Hint Resolve ro_dist_stats : orep.
Lemma ro_get_clustering_stats ds cl out : repM says (get_clustering_stats cfg P ds cl out).
Proof. unfold get_clustering_stats. rep_all.
Qed.
End Oom.

Lemma oom_report {A} (X : A -> Prop) (m : M A) : (forall f s0, repG (nofail f s0) X m) -> forall w a w', oom_run m w a w' -> X a.
Proof.
  intros H w a w' (E & b & Hb & Hf). destruct (H (w_fail w) (w_next w) w a w' E) as [(_ & _ & F)|?]; [|rewrite F in Hf by done; done|done].
  split; [done|]. split; [done|]. intros. lia.
Qed.
Lemma oom_hier cfg P qs log2cap ds k batch cl : provider_reports P ->
  forall w ec cl' w', oom_run (hierarchical_clustering cfg P qs log2cap ds k batch cl) w (ec, cl') w' -> oom_code ec.
Proof. intros HP w ec cl' w' H. apply (oom_report says) in H; [exact H|]. intros. by apply ro_hierarchical_clustering. Qed.
Lemma oom_stats cfg P ds cl out : provider_reports P ->
  forall w ec st w', oom_run (get_clustering_stats cfg P ds cl out) w (ec, st) w' -> oom_code ec.
Proof. intros HP w ec cl' w' H. apply (oom_report says) in H; [exact H|]. intros. by apply ro_get_clustering_stats. Qed.

(** Functions that allocate nothing, and one that allocates once. *)
Definition quiet {A} (m : M A) : Prop := forall w a w', m w = Ok (a, w') -> w_fail w' = w_fail w /\ w_next w' = w_next w.
Lemma quiet_reported {A} (X : A -> Prop) m : quiet m -> oom_reported X m.
Proof. intros H w a w' E. apply H in E as [-> ->]. splits; [done|lia|]. left. intros. lia. Qed.
Lemma qu_ret {A} (a : A) : quiet (Mret a).
Proof. by intros w a' w' [= <- <-]. Qed.
Lemma qu_lift {A} (m : R A) : quiet (lift m).
Proof. intros w a w' E. unfold lift in E. destruct m; [|done]. by injection E as <- <-. Qed.
Lemma qu_bad {A} u : quiet (@Mbad A u).
Proof. intros w a w' [=]. Qed.
Lemma qu_bind {A B} (m : M A) (k : A -> M B) : quiet m -> (forall a, quiet (k a)) -> quiet (Mbind m k).
Proof. intros Hm Hk w b w' E. unfold Mbind in E. destruct (m w) as [[a w1]|] eqn:E1; [|done]. apply Hm in E1 as [<- <-]. by eapply Hk. Qed.
Lemma qu_free p : quiet (free p).
Proof. intros w a w' E. unfold free in E. destruct p as [b|]; [|by injection E as <- <-]. destruct (decide (b ∈ w_live w)); [|done]. by injection E as <- <-. Qed.
Lemma qu_deref b : quiet (deref b).
Proof. unfold deref. intros w a w' E. destruct (decide (b ∈ w_live w)); by simplify_eq. Qed.
Ltac quiet_all := repeat match goal with
  | |- forall _, _ => intro
  | |- quiet (Mbind _ _) => apply qu_bind
  | |- quiet _ => first [apply qu_ret | apply qu_lift | apply qu_bad | apply qu_free | apply qu_deref]
  | |- quiet (match ?x with _ => _ end) => destruct x
  end.
Lemma builtin_reports : provider_reports builtin.
Proof.
  constructor; intros; simpl; try (apply quiet_reported; unfold imp_matrix, imp_rows, imp_max_get, imp_close; quiet_all; fail).
  unfold imp_init. intros w a w' E. unfold Mbind, malloc in E. destruct (w_fail w (w_next w)) eqn:Hf; simpl in E; injection E as <- <-; simpl.
  - splits; [done|lia|by right].
  - splits; [done|lia|left]. intros b Hb. by replace b with (w_next w) by lia.
Qed.
Lemma oom_check cfg cl opt out w ec ok w' : oom_run (check_clustering cfg cl opt out) w (ec, ok) w' -> oom_code ec.
Proof. intros H. apply (oom_report says) in H; [exact H|]. intros. apply (ro_check_clustering _ _ _ (fun _ _ => 0)). Qed.
