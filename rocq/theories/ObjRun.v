(** Histories of calls on clustering objects. *)

From Coq Require Import Strings.String.
From stdpp Require Import prelude list gmap.
From Coq Require Import NArith ZArith.
From Verif Require Import Base World Options Mem DigraphRep BatchProof Obj.
Open Scope list_scope. Open Scope nat_scope.

(** What the user does: calls to the library, and their own work on arrays of
    labels. [ORun] is a call that computes a clustering. *)
Inductive op :=
| OInitEmpty (num : N) (ext : option nat) (out : bool)
| OInitExisting (num k : N) (labels : option nat) (deep out : bool)
| OCopy (p : option nat) (out : bool)
| OInfo (p : option nat) (out_n out_k : bool)
| OLabels (p : option nat) (len : nat) (buf : option nat)
| OFree (p : option nat)
| OUserNew (l : list (option Z))
| OUserSet (b i : nat) (x : Z)
| OUserDrop (b : nat)
| ORun (f : clustering -> M (ecode * clustering)) (p : nat).

(** What a call returns. *)
Inductive res := RErr (ec : ecode) | RNew (ec : ecode) (out : outp) | RInfo (ec : ecode) (n k : option nat) | RUser (b : nat) | RDone.

Section Run.
Context (cfg : config).

(** The user's array: a fresh block that is not the library's. *)
Definition user_new (l : list (option Z)) : H nat := fun h =>
  let w := h_w h in
  Ok (w_next w, Heap (World (w_fail w) (S (w_next w)) (w_live w) (w_err w) (w_tick w) (w_most w)) (<[w_next w := l]> (h_arr h)) (h_obj h)).

(** A computation on the object: the labels it sees are the first ones of the array,
    and they are written back. *)
Definition write_back (b n : nat) (c : list (option Z)) (arrs : gmap nat (list (option Z))) : gmap nat (list (option Z)) :=
  <[b := c ++ drop n (default [] (arrs !! b))]> arrs.
Definition run_call (f : clustering -> M (ecode * clustering)) (p : nat) : H ecode :=
  let^ o := get_obj p in
  fun h =>
    match f (view_of o (h_arr h)) (h_w h) with
    | Bad u => Bad u
    | Ok ((ec, c), w) =>
        Ok (ec, Heap w (match c_label c with Some a => write_back (a_blk a) (ob_n o) (a_cells a) (h_arr h) | None => h_arr h end)
                  (<[p := Obj (c_version c) (c_n c) (c_k c) (a ← c_label c; Some (a_blk a)) (c_ext c)]> (h_obj h)))
    end.

Definition step (o : op) : H res :=
  match o with
  | OInitEmpty num ext out => let^ x := init_empty_clustering cfg num ext out in Hret (RNew x.1 x.2)
  | OInitExisting num k labels deep out => let^ x := init_existing_clustering cfg num k labels deep out in Hret (RNew x.1 x.2)
  | OCopy p out => let^ x := copy_clustering cfg p out in Hret (RNew x.1 x.2)
  | OInfo p a b => let^ x := get_clustering_info cfg p a b in Hret (RInfo x.1 x.2.1 x.2.2)
  | OLabels p len buf => let^ ec := get_cluster_labels cfg p len buf in Hret (RErr ec)
  | OFree p => let^ _ := free_clustering p in Hret RDone
  | OUserNew l => let^ b := user_new l in Hret (RUser b)
  | OUserSet b i x => let^ _ := set_elem b i (Some x) in Hret RDone
  | OUserDrop b => fun h => Ok (RDone, Heap (h_w h) (delete b (h_arr h)) (h_obj h))
  | ORun f p => let^ ec := run_call f p in Hret (RErr ec)
  end.

(** ** What the user may do *)

(** An array the user has made and not dropped. *)
Definition user_arr (h : heap) (b : nat) (l : list (option Z)) : Prop := h_arr h !! b = Some l /\ b ∉ w_live (h_w h).
(** NULL or an object that was made and not freed. *)
Definition handle (h : heap) (p : option nat) : Prop := match p with None => True | Some p => is_Some (h_obj h !! p) end.

(** Block numbers are never used twice. *)
Definition tidy (w : world) : Prop := NoDup (w_live w) /\ Forall (fun b => b < w_next w) (w_live w).

(** A computation that keeps to the contract proved for the clustering functions of
    the library. *)
Definition good_call (f : clustering -> M (ecode * clustering)) (c : clustering) (w : world) : Prop :=
  Msat none (f c) w (fun '(ec, c') w' => w_next w <= w_next w' /\ tidy w' /\ labels_own c c' w w' /\ clu_kept c c' /\ clu_ok c' /\
    is_initialized_clustering cfg (Some c') = true /\
    match c_label c, c_label c' with None, Some a => w_next w <= a_blk a < w_next w' | _, _ => True end).

Definition legal (h : heap) (o : op) : Prop :=
  match o with
  | OInitEmpty num ext _ => match ext with None => True | Some b => exists l, user_arr h b l /\ (num <= N.of_nat (length l))%N end
  | OInitExisting num _ labels _ _ => match labels with None => True | Some b => exists l, user_arr h b l /\ (num <= N.of_nat (length l))%N end
  | OCopy p _ | OInfo p _ _ | OFree p => handle h p
  | OLabels p len buf => handle h p /\ match buf with None => True | Some b => exists l, user_arr h b l /\ len <= length l end
  | OUserNew _ => True
  | OUserSet b i _ => exists l, user_arr h b l /\ i < length l
  | OUserDrop b => (exists l, user_arr h b l) /\ (forall p o, h_obj h !! p = Some o -> ob_label o <> Some b)
  | ORun f p => exists c, view h p = Some c /\ good_call f c (h_w h)
  end.

(** A program starts with nothing; allocations fail as the world decides. *)
Definition fresh_heap (h : heap) : Prop := w_live (h_w h) = [] /\ h_arr h = ∅ /\ h_obj h = ∅.

Inductive steps : heap -> list op -> heap -> Prop :=
| steps_nil h : steps h [] h
| steps_cons h o r h1 os h2 : legal h o -> step o h = Ok (r, h1) -> steps h1 os h2 -> steps h (o :: os) h2.

Definition reachable (h : heap) : Prop := exists h0 os, fresh_heap h0 /\ steps h0 os h.

(** ** The invariant *)

Definition owned (o : obj) : list nat := if ob_ext o then [] else match ob_label o with Some b => [b] | None => [] end.
Definition obj_blocks (x : nat * obj) : list nat := x.1 :: owned x.2.

Record inv (h : heap) : Prop := {
  i_live : w_live (h_w h) ≡ₚ concat (obj_blocks <$> map_to_list (h_obj h));
  i_tidy : tidy (h_w h);
  i_arr : forall b l, h_arr h !! b = Some l -> b < w_next (h_w h);
  i_init : forall p o, h_obj h !! p = Some o -> obj_initialized cfg o = true;
  i_noarr : forall p o, h_obj h !! p = Some o -> h_arr h !! p = None;
  i_label : forall p o b, h_obj h !! p = Some o -> ob_label o = Some b -> exists l, h_arr h !! b = Some l /\ ob_n o <= length l /\ (ob_ext o = false -> length l = ob_n o) /\ (ob_ext o = true -> b ∉ w_live (h_w h))
}.
End Run.
