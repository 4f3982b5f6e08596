(** Which error a history of calls leaves behind. *)

From Coq Require Import Strings.String.
From stdpp Require Import prelude list gmap.
From Coq Require Import NArith ZArith.
From Verif Require Import Base World Mem Float Spi Options Dist Digraph DigraphRep DigraphOps BatchProof ClusSpec SeedSpec SeedsExcl OptionsProof NngClustering ScSpec ScProof ScClaims ScClaims2 Example1 FailClaims
  Hier HierTop HierClaims Obj ObjRun ObjProof ObjClaims ObjCalls ErrMsg.
Open Scope string_scope. Open Scope list_scope. Open Scope nat_scope.

(** The error code of a failing call. *)
Definition failure (r : res) : option ecode :=
  match r with RErr ec | RNew ec _ | RInfo ec _ _ => if decide (ec = ER_OK) then None else Some ec | _ => None end.

(** What the error state becomes when a call returns [ec]: a failing call reports its
    code, a successful one leaves it alone. *)
Definition err_step (ec : option ecode) (e e' : errst) : Prop := match ec with Some ec => e_code e' = ec | None => e' = e end.

(** A computation does so on object [p]. *)
Definition reporting (f : clustering -> M (ecode * clustering)) (p : nat) (h : heap) : Prop :=
  forall c ec c' w', view h p = Some c -> f c (h_w h) = Ok ((ec, c'), w') -> err_step (if decide (ec = ER_OK) then None else Some ec) (w_err (h_w h)) (w_err w').

(** Histories with the results of calls. *)
Inductive trace (cfg : config) : heap -> list res -> heap -> Prop :=
| trace_nil h : trace cfg h [] h
| trace_cons h o r h1 rs h2 : legal cfg h o -> (forall f p, o = ORun f p -> reporting f p h) -> step cfg o h = Ok (r, h1) -> trace cfg h1 rs h2 -> trace cfg h (r :: rs) h2.

Lemma trace_steps cfg h rs h' : trace cfg h rs h' -> exists os, steps cfg h os h'.
Proof. induction 1 as [h|h o r h1 rs h2 Hl _ E _ [os IH]]; [exists []; constructor|]. exists (o :: os). econstructor; eauto. Qed.

Section Claims.
Context (cfg : config).

Lemma claim_report h o r h' : reachable cfg h -> legal cfg h o -> (forall f p, o = ORun f p -> reporting f p h) -> step cfg o h = Ok (r, h') ->
  err_step (failure r) (w_err (h_w h)) (w_err (h_w h')).
Proof.
  intros H Hl Hrun E.
  assert (constructor o \/ ~ constructor o) as [Hc|Hc] by (destruct o; simpl; auto).
  { destruct (claim_constructor cfg h o r h' H Hl Hc E) as [(p & -> & _ & _ & He)|(ec & -> & Hec & _ & _ & _ & He)]; simpl; [done|]. destruct (decide (ec = ER_OK)); done. }
  pose proof (reachable_inv cfg h H) as Hi. destruct o as [| | |p a b|p len buf|p|l|b i x|b|f p]; simpl in Hc; try (by destruct Hc).
  - destruct (Hsat_info cfg p a b h Hi Hl) as ([ec [n k]] & h1 & E1 & Hd). unfold step, Hbind in E. rewrite E1 in E. injection E as <- <-. simpl.
    destruct Hd as [(-> & -> & _)|(Hf & -> & _)]; [done|]. simpl. by destruct Hf.
  - destruct (claim_labels cfg h p len buf r h' H Hl E) as [(q & b & n & ls & l & l' & -> & _ & _ & _ & _ & _ & _ & _ & -> & _)|(-> & _ & _ & _ & _ & ?)]; done.
  - destruct (Hsat_free_clustering cfg p h Hi Hl) as (u & h1 & E1 & _ & _ & He & _). unfold step, Hbind in E. rewrite E1 in E. injection E as <- <-. done.
  - injection E as <- <-. done.
  - destruct Hl as (l & [El _] & Hlt). unfold step, set_elem, Hbind, get_arr in E. rewrite El, decide_True in E by done. injection E as <- <-. done.
  - injection E as <- <-. done.
  - specialize (Hrun f p eq_refl). destruct Hl as (c & Hv & _). pose proof Hv as Hv'. unfold view in Hv. destruct (h_obj h !! p) as [ob|] eqn:Eo; [|done]. injection Hv as <-.
    unfold step, run_call, Hbind, Hret, get_obj in E. rewrite Eo in E. destruct (f (view_of ob (h_arr h)) (h_w h)) as [[[ec c'] w']|] eqn:Ef; [|done]. injection E as <- <-. simpl. by eapply Hrun.
Qed.

(** After a history the error is that of the latest failing call; if none failed it is
    the one from before. *)
Lemma claim_history h rs h' : reachable cfg h -> trace cfg h rs h' ->
  match last (omap failure rs) with Some ec => e_code (w_err (h_w h')) = ec | None => w_err (h_w h') = w_err (h_w h) end.
Proof.
  intros H Ht. induction Ht as [h|h o r h1 rs h2 Hl Hrun E Ht IH]; [done|]. pose proof (claim_report h o r h1 H Hl Hrun E) as Hr.
  pose proof (reachable_step cfg h o r h1 H Hl E) as H1. specialize (IH H1). cbn [omap list_omap]. destruct (failure r) as [ec|]; simpl in Hr; [|destruct (last (omap failure rs)); congruence].
  rewrite last_cons. destruct (last (omap failure rs)); [done|]. congruence.
Qed.
End Claims.

(** The hierarchical clustering function is among those computations, and so is the
    other one up to two exceptions. *)
Lemma hier_reporting cfg P V ds n G D qs log2cap k batch p h : (forall c, view h p = Some c -> hier_call cfg P V ds n G D qs k c) -> reporting (hier_run cfg P qs log2cap ds k batch) p h.
Proof.
  intros Hc c ec c' w' Hv E. specialize (Hc c Hv). destruct (hier_exact _ _ _ _ _ _ _ _ log2cap _ batch _ Hc (h_w h)) as (ec1 & c1 & w1 & E1 & _ & _ & Hr).
  unfold hier_run, Mbind in E. rewrite E1 in E. injection E as -> -> ->. destruct Hr as [(-> & He & _)|(Hec & _ & He & _)]; [done|]. destruct (decide (ec = ER_OK)); done.
Qed.

Lemma sc_report cfg P V ds n G D o c w ec cl' w' : call_ok cfg P V ds n G D o c -> sc_clustering cfg P ds (Some o) (Some c) w = Ok ((ec, cl'), w') ->
  (ec <> ER_OK -> e_code (w_err w') = ec) /\ (ec = ER_OK -> solid P V ds n w -> w_err w' = w_err w \/ w_err w' = no_errst).
Proof.
  intros Hc E. pose proof (run_sat _ _ _ _ _ _ _ _ _ Hc anyub _ w (choice_any _ _ _ _ _ _ _ _ _ Hc)) as Hs. unfold Msat in Hs. rewrite E in Hs.
  destruct Hs as (c' & lk & -> & _ & _ & _ & _ & Hpost); [by right|]. destruct Hpost as [(-> & _ & He & _)|(Hec & He & _)]; [|done].
  split; [done|]. intros _ Hs. destruct He as [?|[?|?]]; auto. done.
Qed.

(** ** The exceptions *)

Definition earlier : errst := ErrSt ER_INVALID_INPUT (Some "Invalid clustering object.") "src/scclust.c" 225.
Definition after_error (k : nat) : world := World (fun i => bool_decide (i = k)) 0 [] earlier 0 0.

(** A successful call forgets the earlier error. *)
Lemma forgets : callable pts excl_options /\ exists c' w', cluster_line pts excl_options (after_error 12) = Ok ((ER_OK, Some c'), w') /\ w_err w' = no_errst.
Proof. split; [apply callable_by; by vm_compute|]. eexists _, _. split; [vm_compute; reflexivity|]. done. Qed.
(** A successful call leaves an error of its own. *)
Lemma leaves_own : callable pts (with_size 3 default_options) /\ exists c' w', cluster_line pts (with_size 3 default_options) (after_error 9) = Ok ((ER_OK, Some c'), w') /\ e_code (w_err w') = ER_NO_MEMORY.
Proof. split; [apply callable_by; by vm_compute|]. eexists _, _. split; [vm_compute; reflexivity|]. done. Qed.
