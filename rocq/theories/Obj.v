(** Clustering objects: src/scclust.c. Objects and label arrays live in a heap, so
    that sharing is visible. *)

From Coq Require Import Strings.String.
From stdpp Require Import prelude list gmap.
From Coq Require Import NArith ZArith.
From Verif Require Import Base World Options.
Open Scope string_scope. Open Scope list_scope. Open Scope nat_scope.

Definition src_scclust : string := "src/scclust.c".

(** struct scc_Clustering (src/clustering_struct.h 42-66); the label pointer is the
    number of a block. *)
Record obj := Obj { ob_version : Z; ob_n : nat; ob_k : nat; ob_label : option nat; ob_ext : bool }.

(** Label arrays: the library's and the user's. The user's are not in [w_live], so
    that freeing one is undefined behaviour. *)
Record heap := Heap { h_w : world; h_arr : gmap nat (list (option Z)); h_obj : gmap nat obj }.

Definition H (A : Type) : Type := heap -> R (A * heap).
Definition Hret {A} (a : A) : H A := fun h => Ok (a, h).
Definition Hbind {A B} (m : H A) (k : A -> H B) : H B := fun h => match m h with Ok (a, h') => k a h' | Bad u => Bad u end.
Definition Hbad {A} (u : ub) : H A := fun _ => Bad u.
Definition on_world {A} (m : M A) : H A := fun h => match m (h_w h) with Ok (a, w') => Ok (a, Heap w' (h_arr h) (h_obj h)) | Bad u => Bad u end.
Notation "'let^' x ':=' m 'in' k" := (Hbind m (fun x => k)) (at level 200, x pattern, m at level 100, k at level 200, right associativity).

(** Access through a pointer; an object that was freed is not in the heap. *)
Definition get_obj (p : nat) : H obj := fun h => match h_obj h !! p with Some o => Ok (o, h) | None => Bad Oob end.
Definition put_obj (p : nat) (o : obj) : H unit := fun h => Ok (tt, Heap (h_w h) (h_arr h) (<[p := o]> (h_obj h))).
Definition get_arr (b : nat) : H (list (option Z)) := fun h => match h_arr h !! b with Some l => Ok (l, h) | None => Bad Oob end.
Definition put_arr (b : nat) (l : list (option Z)) : H unit := fun h => Ok (tt, Heap (h_w h) (<[b := l]> (h_arr h)) (h_obj h)).

(** malloc of a struct, written at once by a compound literal. *)
Definition new_obj (o : obj) : H (option nat) :=
  let^ p := on_world (malloc 1) in
  match p with None => Hret None | Some b => let^ _ := put_obj b o in Hret (Some b) end.
Definition free_obj (p : nat) : H unit :=
  let^ _ := on_world (free (Some p)) in
  fun h => Ok (tt, Heap (h_w h) (h_arr h) (delete p (h_obj h))).
Definition free_labels (p : option nat) : H unit :=
  let^ _ := on_world (free p) in
  fun h => Ok (tt, Heap (h_w h) (match p with Some b => delete b (h_arr h) | None => h_arr h end) (h_obj h)).
(** malloc of [n] labels and memcpy from array [src]. *)
Definition new_labels (n : nat) (src : option nat) : H (option nat) :=
  let^ p := on_world (malloc n) in
  match p with
  | None => Hret None
  | Some b =>
      match src with
      | None => Hbad NullPtr
      | Some s =>
          let^ l := get_arr s in
          if decide (length l < n) then Hbad Oob else
          let^ _ := put_arr b (take n l) in Hret (Some b)
      end
  end.

Section Objects.
Context (cfg : config).

(** What the other functions of the library see of an object: the first
    num_data_points labels. *)
Definition view_of (o : obj) (arrs : gmap nat (list (option Z))) : clustering :=
  Clu (ob_version o) (ob_n o) (ob_k o) (b ← ob_label o; Some (Arr b (take (ob_n o) (default [] (arrs !! b))))) (ob_ext o).
Definition view (h : heap) (p : nat) : option clustering := o ← h_obj h !! p; Some (view_of o (h_arr h)).

(** scc_is_initialized_clustering (src/scclust.c 165-175), on the fields of the
    object. *)
Definition obj_initialized (o : obj) : bool :=
  if decide (ob_version o <> clustering_version) then false
  else if decide (ob_n o = 0) then false
  else if (pi_max cfg <? N.of_nat (ob_n o))%N then false
  else if (cl_max cfg <? N.of_nat (ob_k o))%N then false
  else if decide (0 < ob_k o /\ ob_label o = None) then false
  else true.

Definition ptr_initialized (p : option nat) : H bool :=
  match p with None => Hret false | Some p => let^ o := get_obj p in Hret (obj_initialized o) end.

(** What is written to *out_clustering: nothing, NULL or a pointer. *)
Definition outp : Type := option (option nat).

(** scc_init_empty_clustering (src/scclust.c 48-85). [out] tells whether the output
    pointer is not NULL. SIZE_MAX is that of a 64-bit platform. *)
Definition init_empty_clustering (num : N) (ext : option nat) (out : bool) : H (ecode * outp) :=
  let fail ec msg line : H (ecode * outp) := let^ ec := on_world (make_error_msg ec msg src_scclust line) in Hret (ec, Some None) in
  if negb out then let^ ec := on_world (make_error_msg ER_INVALID_INPUT "Output parameter may not be NULL." src_scclust 53) in Hret (ec, None) else
  if (num =? 0)%N then fail ER_INVALID_INPUT "Clustering must have positive number of data points." 60%Z else
  if (pi_max cfg <? num)%N then fail ER_TOO_LARGE_PROBLEM "Too many data points (adjust the 'scc_PointIndex' type)." 63%Z else
  if (u64max - 1 <? num)%N then fail ER_TOO_LARGE_PROBLEM "Too many data points." 66%Z else
  let^ p := new_obj (Obj clustering_version (N.to_nat num) 0 ext (bool_decide (is_Some ext))) in
  match p with
  | None => let^ ec := on_world (make_error ER_NO_MEMORY src_scclust 70) in Hret (ec, Some None)
  | Some p => Hret (ER_OK, Some (Some p))
  end.

(** scc_init_existing_clustering (src/scclust.c 88-152). *)
Definition init_existing_clustering (num k : N) (labels : option nat) (deep out : bool) : H (ecode * outp) :=
  let fail ec msg line : H (ecode * outp) := let^ ec := on_world (make_error_msg ec msg src_scclust line) in Hret (ec, Some None) in
  if negb out then let^ ec := on_world (make_error_msg ER_INVALID_INPUT "Output parameter may not be NULL." src_scclust 95) in Hret (ec, None) else
  if (num =? 0)%N then fail ER_INVALID_INPUT "Clustering must have positive number of data points." 102%Z else
  if (pi_max cfg <? num)%N then fail ER_TOO_LARGE_PROBLEM "Too many data points (adjust the `scc_PointIndex` type)." 105%Z else
  if (u64max - 1 <? num)%N then fail ER_TOO_LARGE_PROBLEM "Too many data points." 108%Z else
  if (k =? 0)%N then fail ER_INVALID_INPUT "Empty clustering." 111%Z else
  if (cl_max cfg <? k)%N then fail ER_TOO_LARGE_PROBLEM "Too many clusters (adjust the `scc_Clabel` type)." 114%Z else
  if (u64max <? k)%N then fail ER_TOO_LARGE_PROBLEM "Too many clusters." 117%Z else
  if decide (labels = None) then fail ER_INVALID_INPUT "Invalid cluster labels." 120%Z else
  let^ p := new_obj (Obj clustering_version (N.to_nat num) (N.to_nat k) None (negb deep)) in
  match p with
  | None => let^ ec := on_world (make_error ER_NO_MEMORY src_scclust 126) in Hret (ec, Some None)
  | Some p =>
      if deep then
        let^ l := new_labels (N.to_nat num) labels in
        match l with
        | None =>
            let^ _ := free_obj p in
            let^ ec := on_world (make_error ER_NO_MEMORY src_scclust 140) in Hret (ec, Some None)
        | Some b =>
            let^ _ := put_obj p (Obj clustering_version (N.to_nat num) (N.to_nat k) (Some b) false) in
            Hret (ER_OK, Some (Some p))
        end
      else
        let^ _ := put_obj p (Obj clustering_version (N.to_nat num) (N.to_nat k) labels true) in
        Hret (ER_OK, Some (Some p))
  end.

(** scc_free_clustering (src/scclust.c 155-162); the argument is the pointer passed
    by address, which is set to NULL. *)
Definition free_clustering (p : option nat) : H unit :=
  match p with
  | None => Hret tt
  | Some p =>
      let^ o := get_obj p in
      let^ _ := (if ob_ext o then Hret tt else free_labels (ob_label o)) in
      free_obj p
  end.

(** scc_copy_clustering (src/scclust.c 178-217). *)
Definition copy_clustering (p : option nat) (out : bool) : H (ecode * outp) :=
  if negb out then let^ ec := on_world (make_error_msg ER_INVALID_INPUT "Output parameter may not be NULL." src_scclust 182) in Hret (ec, None) else
  let^ ok := ptr_initialized p in
  if negb ok then let^ ec := on_world (make_error_msg ER_INVALID_INPUT "Invalid clustering object." src_scclust 189) in Hret (ec, Some None) else
  match p with
  | None => Hbad NullPtr
  | Some p =>
  let^ o := get_obj p in
  let^ q := new_obj (Obj clustering_version (ob_n o) (ob_k o) None false) in
  match q with
  | None => let^ ec := on_world (make_error ER_NO_MEMORY src_scclust 193) in Hret (ec, Some None)
  | Some q =>
      if decide (0 < ob_k o) then
        let^ l := new_labels (ob_n o) (ob_label o) in
        match l with
        | None =>
            let^ _ := free_obj q in
            let^ ec := on_world (make_error ER_NO_MEMORY src_scclust 207) in Hret (ec, Some None)
        | Some b =>
            let^ _ := put_obj q (Obj clustering_version (ob_n o) (ob_k o) (Some b) false) in
            Hret (ER_OK, Some (Some q))
        end
      else Hret (ER_OK, Some (Some q))
  end
  end.

(** scc_get_clustering_info (src/scclust.c 220-232): the numbers written. *)
Definition get_clustering_info (p : option nat) (out_n out_k : bool) : H (ecode * (option nat * option nat)) :=
  let^ ok := ptr_initialized p in
  if negb ok then let^ ec := on_world (make_error_msg ER_INVALID_INPUT "Invalid clustering object." src_scclust 225) in Hret (ec, (None, None)) else
  match p with
  | None => Hbad NullPtr
  | Some p => let^ o := get_obj p in Hret (ER_OK, (if out_n then Some (ob_n o) else None, if out_k then Some (ob_k o) else None))
  end.

(** A write to element [i] of array [b], a read from element [i]. Labels are copied
    as they are: a label that was never written gives an unspecified value. *)
Definition set_elem (b i : nat) (x : option Z) : H unit :=
  let^ l := get_arr b in
  if decide (i < length l) then put_arr b (<[i := x]> l) else Hbad Oob.
Definition get_elem (b i : nat) : H (option Z) :=
  let^ l := get_arr b in
  match l !! i with Some x => Hret x | None => Hbad Oob end.

Fixpoint forH (n i : nat) (f : nat -> H unit) : H unit :=
  match n with 0 => Hret tt | S n' => let^ _ := f i in forH n' (S i) f end.

(** scc_get_cluster_labels (src/scclust.c 235-261). *)
Definition get_cluster_labels (p : option nat) (len : nat) (buf : option nat) : H ecode :=
  let^ ok := ptr_initialized p in
  if negb ok then on_world (make_error_msg ER_INVALID_INPUT "Invalid clustering object." src_scclust 240) else
  match p with
  | None => Hbad NullPtr
  | Some p =>
  let^ o := get_obj p in
  if decide (ob_k o = 0) then on_world (make_error_msg ER_INVALID_INPUT "Empty clustering." src_scclust 243) else
  if decide (len = 0) then on_world (make_error ER_INVALID_INPUT src_scclust 246) else
  match buf with
  | None => on_world (make_error_msg ER_INVALID_INPUT "Output parameter may not be NULL." src_scclust 249)
  | Some b =>
      let^ _ := forH (len `min` ob_n o) 0 (fun i =>
        match ob_label o with
        | None => Hbad NullPtr
        | Some s => let^ x := get_elem s i in set_elem b i x
        end) in
      let^ _ := forH (len - ob_n o) (ob_n o) (fun i => set_elem b i (Some (cl_na cfg))) in
      Hret ER_OK
  end
  end.
End Objects.
