(** Histories of calls that can be run. *)

From Coq Require Import Strings.String.
From stdpp Require Import prelude list gmap.
From Coq Require Import NArith ZArith.
From Verif Require Import Base World Mem Float Spi Options Dist Digraph DigraphRep DigraphOps BatchProof ClusSpec SeedSpec SeedsExcl OptionsProof NngClustering ScSpec ScProof DistProof ScClaims ScClaims2 Example1 FailClaims
  Obj ObjRun ObjProof ObjClaims ObjCalls.
Open Scope list_scope. Open Scope nat_scope.

(** An operation, or the clustering of points on a line. *)
Inductive xop := X (o : op) | XCluster (l : list Z) (o : options) (p : nat).
Definition op_of (x : xop) : op :=
  match x with X o => o | XCluster l o p => ORun (sc_call default_config builtin (Some (line l)) (Some o)) p end.

Definition user_b (h : heap) (b : nat) (len : N) : bool :=
  match h_arr h !! b with None => false | Some l => bool_decide (b ∉ w_live (h_w h)) && (len <=? N.of_nat (length l))%N end.
Definition handle_b (h : heap) (p : option nat) : bool := match p with None => true | Some p => bool_decide (is_Some (h_obj h !! p)) end.

Definition legal_b (h : heap) (x : xop) : bool :=
  match x with
  | X (OInitEmpty num (Some b) _) | X (OInitExisting num _ (Some b) _ _) => user_b h b num
  | X (OInitEmpty _ None _) | X (OInitExisting _ _ None _ _) => true
  | X (OCopy p _) | X (OInfo p _ _) | X (OFree p) => handle_b h p
  | X (OLabels p len buf) => handle_b h p && match buf with None => true | Some b => user_b h b (N.of_nat len) end
  | X (OUserNew _) => true
  | X (OUserSet b i _) => user_b h b (N.of_nat (S i))
  | X (OUserDrop b) => user_b h b 0 && forallb (fun x => bool_decide (ob_label x.2 <> Some b)) (map_to_list (h_obj h))
  | X (ORun _ _) => false
  | XCluster l o p =>
      match view h p with
      | None => false
      | Some c =>
          match l with [] => false | _ => true end && finite_b l && sane_b o (length l) && is_initialized_clustering default_config (Some c) &&
          match c_label c with None => true | Some a => bool_decide (length (a_cells a) = c_n c) end &&
          bool_decide (NoDup (w_live (h_w h))) && bool_decide (Forall (fun b => b < w_next (h_w h)) (w_live (h_w h))) &&
          match sc_clustering default_config builtin (Some (line l)) (Some o) (Some c) (h_w h) with Ok ((ER_OK, Some _), _) => true | _ => false end
      end
  end.

Lemma user_b_ok h b len : user_b h b len = true -> exists l, user_arr h b l /\ (len <= N.of_nat (length l))%N.
Proof.
  unfold user_b. destruct (h_arr h !! b) as [l|] eqn:E; [|done]. intros [H1%bool_decide_eq_true_1 H2%N.leb_le]%andb_true_iff. exists l. split; [by split|done].
Qed.
Lemma handle_b_ok h p : handle_b h p = true -> handle h p.
Proof. destruct p as [p|]; simpl; [|done]. by intros ?%bool_decide_eq_true_1. Qed.

Lemma legal_b_ok h x : legal_b h x = true -> legal default_config h (op_of x).
Proof.
  destruct x as [[num [b|] out|num k [b|] deep out|p out|p a b|p len buf|p|l|b i x|b|f p]|l o p]; cbn [legal_b legal op_of]; try done; try apply user_b_ok; try apply handle_b_ok.
  - intros [H1 H2]%andb_true_iff. split; [by apply handle_b_ok|]. destruct buf as [b|]; [|done]. apply user_b_ok in H2 as (l & ? & ?). exists l. split; [done|lia].
  - intros (l & ? & ?)%user_b_ok. exists l. split; [done|lia].
  - intros [(l & Hu & _)%user_b_ok H2]%andb_true_iff. split; [eauto|]. intros p o Ho. rewrite forallb_forall in H2. specialize (H2 (p, o)). simpl in H2. apply bool_decide_eq_true_1 in H2; [done|].
    by apply elem_of_list_In, elem_of_map_to_list.
  - destruct (view h p) as [c|] eqn:Ev; [|done]. rewrite !andb_true_iff. intros (((((((H1 & H2) & H3) & H4) & H5) & H6) & H7) & H8). apply bool_decide_eq_true_1 in H6, H7.
    exists c. split; [done|]. destruct (sc_clustering default_config builtin (Some (line l)) (Some o) (Some c) (h_w h)) as [[[ec [c'|]] w']|] eqn:E; [|by destruct ec|done]. destruct ec; try done.
    apply (sc_good_ran default_config builtin (builtin_view (line l) (length l)) (Some (line l)) (length l) (eucl_geo (line l)) (eucl (line l)) builtin_tidy o c (h_w h) ER_OK c' w'); auto.
    + apply line_call; auto; [apply default_config_ok|by destruct l|]. unfold clu_ok. destruct (c_label c) as [a|]; [|done]. by apply bool_decide_eq_true_1 in H5.
    + by split.
Qed.

(** Runs a history, checking each step. *)
Fixpoint run_ops (xs : list xop) (h : heap) : option (list res * heap) :=
  match xs with
  | [] => Some ([], h)
  | x :: xs => if legal_b h x then match step default_config (op_of x) h with Ok (r, h1) => match run_ops xs h1 with Some (rs, h2) => Some (r :: rs, h2) | None => None end | Bad _ => None end else None
  end.

Lemma run_ops_ok xs h rs h' : run_ops xs h = Some (rs, h') -> steps default_config h (op_of <$> xs) h'.
Proof.
  revert h rs. induction xs as [|x xs IH]; intros h rs; simpl; [intros [= <- <-]; constructor|].
  destruct (legal_b h x) eqn:El; [|done]. destruct (step default_config (op_of x) h) as [[r h1]|] eqn:Es; [|done]. destruct (run_ops xs h1) as [[rs1 h2]|] eqn:Er; [|done].
  intros [= <- <-]. econstructor; [by apply legal_b_ok|done|by eapply IH].
Qed.

(** A history from the start: what the calls return, the blocks allocated and the array
    numbered [b] at the end. *)
Definition heap0 (w : world) : heap := Heap w ∅ ∅.
Definition history (w : world) (xs : list xop) (rs : list res) (live : list nat) (b : nat) (l : option (list (option Z))) : Prop :=
  fresh_heap (heap0 w) /\ exists h, steps default_config (heap0 w) (op_of <$> xs) h /\ run_ops xs (heap0 w) = Some (rs, h) /\ w_live (h_w h) = live /\ h_arr h !! b = l.

Global Instance res_dec : EqDecision res.
Proof. solve_decision. Defined.

Lemma history_by w xs rs live b l : w_live w = [] ->
  match run_ops xs (heap0 w) with Some (rs', h) => bool_decide (rs' = rs) && bool_decide (w_live (h_w h) = live) && bool_decide (h_arr h !! b = l) | None => false end = true -> history w xs rs live b l.
Proof.
  intros Hw. destruct (run_ops xs (heap0 w)) as [[rs' h]|] eqn:E; [|done]. rewrite !andb_true_iff. intros [[H1%bool_decide_eq_true_1 H2%bool_decide_eq_true_1] H3%bool_decide_eq_true_1]. subst rs'.
  split; [by split|]. exists h. split; [by eapply run_ops_ok|]. auto.
Qed.

(** A user's array, a shallow and a deep object on it, a write to the array, a copy of
    the shallow object, another write; then labels are read from all three. *)
Definition sharing : list xop :=
  [X (OUserNew (Some <$> [0; 0; 1; 1]%Z)); X (OInitExisting 4 2 (Some 0) false true); X (OInitExisting 4 2 (Some 0) true true);
   X (OUserSet 0 0 1); X (OCopy (Some 1) true); X (OUserSet 0 1 1);
   X (OUserNew (replicate 6 None)); X (OInfo (Some 4) true true)].
Example sharing_deep : history world0 (sharing ++ [X (OLabels (Some 2) 6 (Some 6))])
  [RUser 0; RNew ER_OK (Some (Some 1)); RNew ER_OK (Some (Some 2)); RDone; RNew ER_OK (Some (Some 4)); RDone; RUser 6; RInfo ER_OK (Some 4) (Some 2); RErr ER_OK] [5; 4; 3; 2; 1]
  6 (Some (Some <$> [0; 0; 1; 1; 4294967295; 4294967295]%Z)).
Proof. apply history_by; [done|]. by vm_compute. Qed.
Example sharing_shallow : history world0 (sharing ++ [X (OLabels (Some 1) 3 (Some 6))])
  [RUser 0; RNew ER_OK (Some (Some 1)); RNew ER_OK (Some (Some 2)); RDone; RNew ER_OK (Some (Some 4)); RDone; RUser 6; RInfo ER_OK (Some 4) (Some 2); RErr ER_OK] [5; 4; 3; 2; 1]
  6 (Some ((Some <$> [1; 1; 1]%Z) ++ [None; None; None])).
Proof. apply history_by; [done|]. by vm_compute. Qed.
Example sharing_copy : history world0 (sharing ++ [X (OFree (Some 1)); X (OLabels (Some 4) 4 (Some 6)); X (OFree (Some 2)); X (OFree (Some 4)); X (OUserDrop 0)])
  [RUser 0; RNew ER_OK (Some (Some 1)); RNew ER_OK (Some (Some 2)); RDone; RNew ER_OK (Some (Some 4)); RDone; RUser 6; RInfo ER_OK (Some 4) (Some 2); RDone; RErr ER_OK; RDone; RDone; RDone] []
  6 (Some ((Some <$> [1; 0; 1; 1]%Z) ++ [None; None])).
Proof. apply history_by; [done|]. by vm_compute. Qed.

(** An object is copied before it is clustered; the copy is clustered differently and
    copied; then the labels of the copy of the copy and of the first object are read. *)
Definition clustering_ops : list xop :=
  [X (OInitEmpty 12 None true); X (OCopy (Some 0) true); XCluster pts (with_size 3 default_options) 0; X (OInfo (Some 1) true true);
   XCluster pts (with_size 6 default_options) 1; X (OCopy (Some 1) true); X (OFree (Some 1)); X (OUserNew (replicate 12 None))].
Example clustering_copy :
  history world0 (clustering_ops ++ [X (OLabels (Some 21) 12 (Some 23)); X (OFree (Some 21)); X (OFree (Some 0)); X (OFree None)])
  [RNew ER_OK (Some (Some 0)); RNew ER_OK (Some (Some 1)); RErr ER_OK; RInfo ER_OK (Some 12) (Some 0); RErr ER_OK; RNew ER_OK (Some (Some 21)); RDone; RUser 23; RErr ER_OK; RDone; RDone; RDone] []
  23 (Some (Some <$> [0; 1; 0; 0; 1; 1; 0; 0; 1; 1; 1; 0]%Z)).
Proof. apply history_by; [done|]. by vm_compute. Qed.
Example clustering_first :
  history world0 (clustering_ops ++ [X (OLabels (Some 0) 12 (Some 23))])
  [RNew ER_OK (Some (Some 0)); RNew ER_OK (Some (Some 1)); RErr ER_OK; RInfo ER_OK (Some 12) (Some 0); RErr ER_OK; RNew ER_OK (Some (Some 21)); RDone; RUser 23; RErr ER_OK] [22; 21; 10; 0]
  23 (Some (Some <$> [0; 1; 0; 0; 1; 2; 1; 0; 2; 2; 1; 0]%Z)).
Proof. apply history_by; [done|]. by vm_compute. Qed.

(** Constructors that fail: bad arguments, and the allocation for the labels of a
    copy. *)
Definition failing_ops : list xop :=
  [X (OUserNew (Some <$> [0; 0; 1; 1]%Z)); X (OInitExisting 4 2 (Some 0) false true); X (OInitExisting 4 0 (Some 0) true true); X (OInitExisting 0 2 (Some 0) true true);
   X (OInitEmpty 4294967296 None true); X (OCopy None true); X (OCopy (Some 1) false); X (OCopy (Some 1) true); X (OInfo None true true); X (OLabels (Some 1) 4 None); X (OFree (Some 1))].
Example failing : history (world_fail 3) failing_ops
  [RUser 0; RNew ER_OK (Some (Some 1)); RNew ER_INVALID_INPUT (Some None); RNew ER_INVALID_INPUT (Some None);
   RNew ER_TOO_LARGE_PROBLEM (Some None); RNew ER_INVALID_INPUT (Some None); RNew ER_INVALID_INPUT None; RNew ER_NO_MEMORY (Some None); RInfo ER_INVALID_INPUT None None; RErr ER_INVALID_INPUT; RDone] []
  0 (Some (Some <$> [0; 0; 1; 1]%Z)).
Proof. apply history_by; [done|]. by vm_compute. Qed.
