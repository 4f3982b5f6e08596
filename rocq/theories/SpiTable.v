(** Replacing the distance functions: src/scclust_spi.c. *)

From stdpp Require Import prelude list.
From Verif Require Import Base.

Section Table.
(** Addresses of functions. *)
Context {F : Type}.

(** iscc_dist_functions_struct (src/dist_search.h 34-45). *)
Record ftable := FTable {
  f_check : F; f_num : F; f_matrix : F; f_rows : F;
  f_mx_init : F; f_mx_get : F; f_mx_close : F;
  f_nn_init : F; f_nn_search : F; f_nn_close : F
}.

(** The arguments of scc_set_dist_functions; None is NULL. *)
Record fargs := FArgs {
  g_check : option F; g_num : option F; g_matrix : option F; g_rows : option F;
  g_mx_init : option F; g_mx_get : option F; g_mx_close : option F;
  g_nn_init : option F; g_nn_search : option F; g_nn_close : option F
}.

(** scc_set_dist_functions (src/scclust_spi.c 70-122), part by part. *)
Definition set_singles (a : fargs) (t : ftable) : ftable :=
  FTable (default (f_check t) (g_check a)) (default (f_num t) (g_num a)) (default (f_matrix t) (g_matrix a)) (default (f_rows t) (g_rows a))
    (f_mx_init t) (f_mx_get t) (f_mx_close t) (f_nn_init t) (f_nn_search t) (f_nn_close t).

(** 97-107: the flag tells whether the function goes on. *)
Definition set_max (a : fargs) (t : ftable) : bool * ftable :=
  match g_mx_init a, g_mx_get a, g_mx_close a with
  | Some i, Some g, Some c => (true, FTable (f_check t) (f_num t) (f_matrix t) (f_rows t) i g c (f_nn_init t) (f_nn_search t) (f_nn_close t))
  | None, None, None => (true, t)
  | _, _, _ => (false, t)
  end.

(** 109-119. *)
Definition set_nn (a : fargs) (t : ftable) : bool * ftable :=
  match g_nn_init a, g_nn_search a, g_nn_close a with
  | Some i, Some g, Some c => (true, FTable (f_check t) (f_num t) (f_matrix t) (f_rows t) (f_mx_init t) (f_mx_get t) (f_mx_close t) i g c)
  | None, None, None => (true, t)
  | _, _, _ => (false, t)
  end.

Definition set_dist_functions (a : fargs) (t : ftable) : bool * ftable :=
  let t := set_singles a t in
  match set_max a t with
  | (false, t) => (false, t)
  | (true, t) => set_nn a t
  end.

(** The static table's initial value (33-44), also what scc_reset_dist_functions
    (51-67) installs. *)
Context (builtins : ftable).
Definition reset_dist_functions (t : ftable) : bool * ftable := (true, builtins).

(** ** Histories *)

Inductive fop := FSet (a : fargs) | FReset.
Definition fstep (t : ftable) (o : fop) : ftable := match o with FSet a => (set_dist_functions a t).2 | FReset => (reset_dist_functions t).2 end.
Definition ftable_after (ops : list fop) : ftable := foldl fstep builtins ops.

(** What a call asks to install; the nearest neighbour functions are not reached
    when the maximum-distance functions are rejected. *)
Definition asks_max (o : fop) : option (F * F * F) :=
  match o with
  | FReset => Some (f_mx_init builtins, f_mx_get builtins, f_mx_close builtins)
  | FSet a => match g_mx_init a, g_mx_get a, g_mx_close a with Some i, Some g, Some c => Some (i, g, c) | _, _, _ => None end
  end.
(** Some of three arguments are NULL, but not all. *)
Definition mixed (x y z : option F) : Prop := 0 < length (omap id [x; y; z]) < 3.
Definition asks_nn (o : fop) : option (F * F * F) :=
  match o with
  | FReset => Some (f_nn_init builtins, f_nn_search builtins, f_nn_close builtins)
  | FSet a => match g_nn_init a, g_nn_search a, g_nn_close a with
              | Some i, Some g, Some c => Some (i, g, c)
              | _, _, _ => None
              end
  end.
Definition max_rejected (o : fop) : Prop := match o with FReset => False | FSet a => mixed (g_mx_init a) (g_mx_get a) (g_mx_close a) end.

Definition max_of (t : ftable) : F * F * F := (f_mx_init t, f_mx_get t, f_mx_close t).
Definition nn_of (t : ftable) : F * F * F := (f_nn_init t, f_nn_search t, f_nn_close t).

Lemma step_max t o : max_of (fstep t o) = default (max_of t) (asks_max o).
Proof.
  destruct o as [a|]; [|done]. simpl. unfold set_dist_functions, set_max, set_nn.
  destruct (g_mx_init a), (g_mx_get a), (g_mx_close a); try done; destruct (g_nn_init a), (g_nn_search a), (g_nn_close a); done.
Qed.

Lemma step_nn t o : (max_rejected o -> nn_of (fstep t o) = nn_of t) /\ (~ max_rejected o -> nn_of (fstep t o) = default (nn_of t) (asks_nn o)).
Proof.
  destruct o as [a|]; [|by split]. simpl. unfold set_dist_functions, set_max, set_nn, mixed.
  destruct (g_mx_init a), (g_mx_get a), (g_mx_close a); simpl; split; intros H; try done; try lia; destruct (g_nn_init a), (g_nn_search a), (g_nn_close a); done.
Qed.

Lemma table_max ops : let t := ftable_after ops in
  (max_of t = max_of builtins /\ Forall (fun o => asks_max o = None) ops) \/
  exists l o r, ops = l ++ o :: r /\ asks_max o = Some (max_of t) /\ Forall (fun o => asks_max o = None) r.
Proof.
  cbn zeta. unfold ftable_after. induction ops as [|o ops IH] using rev_ind; [by left|]. rewrite foldl_app. cbn [foldl]. rewrite step_max. destruct (asks_max o) as [m|] eqn:E; simpl.
  - right. exists ops, o, []. auto.
  - destruct IH as [[H1 H2]|(l & o' & r & -> & H1 & H2)]; [left|right].
    + split; [done|]. apply Forall_app. auto.
    + exists l, o', (r ++ [o]). rewrite <- app_assoc. splits; auto. apply Forall_app. auto.
Qed.

Definition installs_nn (o : fop) (m : F * F * F) : Prop := ~ max_rejected o /\ asks_nn o = Some m.

Lemma mixed_dec x y z : mixed x y z \/ ~ mixed x y z.
Proof. unfold mixed. lia. Qed.

Lemma max_rejected_dec o : max_rejected o \/ ~ max_rejected o.
Proof. destruct o; [apply mixed_dec|right; intros []]. Qed.

Lemma table_nn ops : let t := ftable_after ops in
  (nn_of t = nn_of builtins /\ Forall (fun o => forall m, ~ installs_nn o m) ops) \/
  exists l o r, ops = l ++ o :: r /\ installs_nn o (nn_of t) /\ Forall (fun o => forall m, ~ installs_nn o m) r.
Proof.
  cbn zeta. unfold ftable_after. induction ops as [|o ops IH] using rev_ind; [by left|]. rewrite foldl_app. cbn [foldl]. set (t := foldl fstep builtins ops) in *.
  destruct (step_nn t o) as [Hr Hn]. destruct (max_rejected_dec o) as [Hm|Hm]; [specialize (Hr Hm)|specialize (Hn Hm)].
  - rewrite Hr. assert (forall m, ~ installs_nn o m) as Hno by (intros m [? _]; done). destruct IH as [[H1 H2]|(l & o' & r & -> & H1 & H2)]; [left|right].
    + split; [done|]. apply Forall_app. auto.
    + exists l, o', (r ++ [o]). rewrite <- app_assoc. splits; auto. apply Forall_app. auto.
  - rewrite Hn. destruct (asks_nn o) as [m|] eqn:E; simpl.
    + right. exists ops, o, []. splits; auto. by split.
    + assert (forall m, ~ installs_nn o m) as Hno by (intros m [_ ?]; congruence). destruct IH as [[H1 H2]|(l & o' & r & -> & H1 & H2)]; [left|right].
      * split; [done|]. apply Forall_app. auto.
      * exists l, o', (r ++ [o]). rewrite <- app_assoc. splits; auto. apply Forall_app. auto.
Qed.

(** When false is returned. *)
Lemma set_result a t : (set_dist_functions a t).1 = false <-> mixed (g_mx_init a) (g_mx_get a) (g_mx_close a) \/ mixed (g_nn_init a) (g_nn_search a) (g_nn_close a).
Proof.
  unfold set_dist_functions, set_max, set_nn, mixed.
  destruct (g_mx_init a), (g_mx_get a), (g_mx_close a), (g_nn_init a), (g_nn_search a), (g_nn_close a); simpl; split; intros H; try done; lia.
Qed.

(** The four functions that are set one by one, and the arguments for them. *)
Definition singles : list ((ftable -> F) * (fargs -> option F)) := [(f_check, g_check); (f_num, g_num); (f_matrix, g_matrix); (f_rows, g_rows)].
Definition asks_single (x : (ftable -> F) * (fargs -> option F)) (o : fop) : option F := match o with FReset => Some (x.1 builtins) | FSet a => x.2 a end.

Lemma step_single x t o : x ∈ singles -> x.1 (fstep t o) = default (x.1 t) (asks_single x o).
Proof.
  intros Hx. unfold singles in Hx. destruct o as [a|]; [|done]. simpl. unfold set_dist_functions, set_max, set_nn.
  repeat (apply elem_of_cons in Hx as [->|Hx]); [..|by apply elem_of_nil in Hx]; simpl; destruct (g_mx_init a), (g_mx_get a), (g_mx_close a); try done; destruct (g_nn_init a), (g_nn_search a), (g_nn_close a); done.
Qed.

Lemma table_single x ops : x ∈ singles -> let t := ftable_after ops in
  (x.1 t = x.1 builtins /\ Forall (fun o => asks_single x o = None) ops) \/
  exists l o r, ops = l ++ o :: r /\ asks_single x o = Some (x.1 t) /\ Forall (fun o => asks_single x o = None) r.
Proof.
  intros Hx. cbn zeta. unfold ftable_after. induction ops as [|o ops IH] using rev_ind; [by left|]. rewrite foldl_app. cbn [foldl]. rewrite step_single by done. destruct (asks_single x o) as [m|] eqn:E; simpl.
  - right. exists ops, o, []. auto.
  - destruct IH as [[H1 H2]|(l & o' & r & -> & H1 & H2)]; [left|right].
    + split; [done|]. apply Forall_app. auto.
    + exists l, o', (r ++ [o]). rewrite <- app_assoc. splits; auto. apply Forall_app. auto.
Qed.

(** What a rejected call leaves alone. *)
Lemma rejected_keeps a t : (set_dist_functions a t).1 = false ->
  nn_of (set_dist_functions a t).2 = nn_of t /\ (mixed (g_mx_init a) (g_mx_get a) (g_mx_close a) -> max_of (set_dist_functions a t).2 = max_of t).
Proof.
  unfold set_dist_functions, set_max, set_nn, mixed.
  destruct (g_mx_init a), (g_mx_get a), (g_mx_close a), (g_nn_init a), (g_nn_search a), (g_nn_close a); simpl; intros H; split; try done; intros ?; lia.
Qed.
End Table.
Arguments ftable F : clear implicits.
Arguments fargs F : clear implicits.
Arguments fop F : clear implicits.
