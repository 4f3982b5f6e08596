(** Model of the public functions of src/utilities.c that take a clustering. *)

From Coq Require Import Strings.String.
From stdpp Require Import prelude list.
From Coq Require Import NArith ZArith.
From Verif Require Import Base World Float Spi Options Hier.
Open Scope string_scope. Open Scope list_scope. Open Scope nat_scope.

Definition src_util : string := "src/utilities.c".

Section Util.
Context (cfg : config).

(** Loop over the labels in scc_check_clustering (src/utilities.c 104-109):
    [false] if some label is neither in range nor SCC_CLABEL_NA. *)
Definition labels_in_range (c : clustering) : R bool :=
  let! r := loopR (c_n c) 0 tt (fun i _ =>
    let! l := aget (c_label c) i in
    if decide (0 < l /\ l < Z.of_nat (c_k c))%Z then Ok (inl tt)
    else if decide (l = 0)%Z then Ok (inl tt)
    else if decide (l = cl_na cfg) then Ok (inl tt)
    else Ok (inr tt)) in
  Ok (match r with inl _ => true | inr _ => false end).

(** Loop over the primary data points (src/utilities.c 111-117). *)
Definition primary_labelled (c : clustering) (o : options) : R bool :=
  match o_prim o with
  | None => Ok true
  | Some p =>
      let! r := loopR (o_len_prim o) 0 tt (fun i _ =>
        let! x := lget p i in
        let! l := aget (c_label c) x in
        if decide (l = cl_na cfg) then Ok (inr tt) else Ok (inl tt)) in
      Ok (match r with inl _ => true | inr _ => false end)
  end.

(** Sizes of the clusters (src/utilities.c 124-128 and 198-202). *)
Definition count_sizes (c : clustering) (sz : option (arr nat)) : R (option (arr nat)) :=
  forR (c_n c) 0 sz (fun i sz =>
    let! l := aget (c_label c) i in
    if decide (l = cl_na cfg) then Ok sz else
    let! j := label_idx l in
    let! s := aget sz j in
    aset sz j (s + 1)).

(** src/utilities.c 130-135. *)
Definition sizes_large (k size : nat) (sz : option (arr nat)) : R bool :=
  let! r := loopR k 0 tt (fun i _ =>
    let! s := aget sz i in
    if decide (s < size) then Ok (inr tt) else Ok (inl tt)) in
  Ok (match r with inl _ => true | inr _ => false end).

(** Sizes by type (src/utilities.c 144-148). *)
Definition count_types (c : clustering) (nt : nat) (tl : option (list nat)) (sz : option (arr nat)) : R (option (arr nat)) :=
  forR (c_n c) 0 sz (fun i sz =>
    let! l := aget (c_label c) i in
    if decide (l = cl_na cfg) then Ok sz else
    let! j := label_idx l in
    let! t := (match tl with Some tl => lget tl i | None => Bad NullPtr end) in
    let! s := aget sz (j * nt + t) in
    aset sz (j * nt + t) (s + 1)).

(** src/utilities.c 150-163. *)
Definition types_large (k nt size : nat) (tcons : option (list nat)) (sz : option (arr nat)) : R bool :=
  let! r := loopR k 0 tt (fun i _ =>
    let! r := loopR nt 0 0 (fun t total =>
      let! s := aget sz (i * nt + t) in
      let! m := (match tcons with Some tc => lget tc t | None => Bad NullPtr end) in
      if decide (s < m) then Ok (inr tt) else Ok (inl (total + s))) in
    match r with
    | inr _ => Ok (inr tt)
    | inl total => if decide (total < size) then Ok (inr tt) else Ok (inl tt)
    end) in
  Ok (match r with inl _ => true | inr _ => false end).

(** scc_check_clustering (src/utilities.c 78-171). [out] tells whether the output
    pointer is not NULL; the second result is the value written through it. *)
Definition check_clustering (cl : option clustering) (opt : option options) (out : bool) : M (ecode * option bool) :=
  if negb out then let* ec := make_error_msg ER_INVALID_INPUT "Output parameter may not be NULL." src_util 83 in Mret (ec, None) else
  let fail (ec : ecode) : M (ecode * option bool) := Mret (ec, Some false) in
  if negb (is_initialized_clustering cfg cl) then let* ec := make_error_msg ER_INVALID_INPUT "Invalid clustering object." src_util 87 in fail ec else
  match cl with
  | None => Mbad NullPtr
  | Some c =>
  if decide (c_k c = 0) then let* ec := make_error_msg ER_INVALID_INPUT "Empty clustering." src_util 90 in fail ec else
  let* ec := check_cluster_options opt (c_n c) in
  if decide (ec <> ER_OK) then fail ec else
  match opt with
  | None => Mbad NullPtr
  | Some o =>
  let* ok := lift (labels_in_range c) in
  if negb ok then fail ER_OK else
  let* ok := lift (primary_labelled c o) in
  if negb ok then fail ER_OK else
  if decide (o_num_types o < 2) then
    let* sz := calloc_arr (c_k c) 0 in
    match sz with
    | None => let* ec := make_error ER_NO_MEMORY src_util 122 in fail ec
    | Some _ =>
        let* sz := lift (count_sizes c sz) in
        let* ok := lift (sizes_large (c_k c) (o_size o) sz) in
        let* _ := free_arr sz in
        Mret (ER_OK, Some ok)
    end
  else
    let* sz := calloc_arr (wrapN u64max (o_num_types o * c_k c)) 0 in
    match sz with
    | None => let* ec := make_error ER_NO_MEMORY src_util 142 in fail ec
    | Some _ =>
        let* sz := lift (count_types c (o_num_types o) (o_tlabels o) sz) in
        let* ok := lift (types_large (c_k c) (o_num_types o) (o_size o) (o_tcons o) sz) in
        let* _ := free_arr sz in
        Mret (ER_OK, Some ok)
    end
  end
  end.

(** scc_ClusteringStats (templates/scclust.h). min_cluster_size is kept as a
    binary number, as it starts at UINT64_MAX. *)
Record stats := Stats {
  st_n : nat;            (* num_data_points *)
  st_assigned : nat;     (* num_assigned *)
  st_k : nat;            (* num_clusters *)
  st_pop : nat;          (* num_populated_clusters *)
  st_minsize : N;        (* min_cluster_size *)
  st_maxsize : nat;      (* max_cluster_size *)
  st_avgsize : double;   (* avg_cluster_size *)
  st_sum : double;       (* sum_dists *)
  st_min : double;       (* min_dist *)
  st_max : double;       (* max_dist *)
  st_avgmin : double;    (* avg_min_dist *)
  st_avgmax : double;    (* avg_max_dist *)
  st_avgw : double;      (* avg_dist_weighted *)
  st_avgu : double       (* avg_dist_unweighted *)
}.

(** ISCC_NULL_CLUSTERING_STATS (src/utilities.c 44). *)
Definition null_stats : stats := Stats 0 0 0 0 0 0 d_zero d_zero d_zero d_zero d_zero d_zero d_zero d_zero.

(** src/utilities.c 221-231. *)
Definition size_stats (k : nat) (sz : option (arr nat)) (s : stats) : R stats :=
  forR k 0 s (fun c s =>
    let! z := aget sz c in
    if decide (z = 0) then Ok s else
    Ok (Stats (st_n s) (st_assigned s + z) (st_k s) (st_pop s + 1)
          (if (N.of_nat z <? st_minsize s)%N then N.of_nat z else st_minsize s)
          (if decide (st_maxsize s < z) then z else st_maxsize s)
          (st_avgsize s) (st_sum s) (st_min s) (st_max s) (st_avgmin s) (st_avgmax s) (st_avgw s) (st_avgu s))).

(** The pointers to the clusters' members (src/utilities.c 251-254), as offsets
    into id_store. *)
Definition member_ends (k : nat) (sz ptr : option (arr nat)) : R (option (arr nat)) :=
  let! z := aget sz 0 in
  let! ptr := aset ptr 0 z in
  forR (k - 1) 1 ptr (fun c ptr =>
    let! p := aget ptr (c - 1) in
    let! z := aget sz c in
    aset ptr c (p + z)).

(** src/utilities.c 256-263. *)
Definition fill_members (c : clustering) (ptr st : option (arr nat)) : R (option (arr nat) * option (arr nat)) :=
  forR (c_n c) 0 (ptr, st) (fun i '(ptr, st) =>
    let! l := aget (c_label c) i in
    if decide (l = cl_na cfg) then Ok (ptr, st) else
    let! j := label_idx l in
    let! p := aget ptr j in
    if decide (p = 0) then Bad Arith else
    let! ptr := aset ptr j (p - 1) in
    let! st := aset st (p - 1) i in
    Ok (ptr, st)).

(** Sum, minimum and maximum of the distances in a cluster (src/utilities.c
    280-292). *)
Definition cluster_dists (m : nat) (d : option (arr double)) : R (double * double * double) :=
  let! x := aget d 0 in
  forR (m - 1) 1 (x, x, x) (fun i '(sum, lo, hi) =>
    let! x := aget d i in
    Ok (d_add sum x, if d_gt lo x then x else lo, if d_lt hi x then x else hi)).

(** src/utilities.c 294-306. *)
Definition add_cluster (s : stats) (z m : nat) (sum lo hi : double) : stats :=
  Stats (st_n s) (st_assigned s) (st_k s) (st_pop s) (st_minsize s) (st_maxsize s) (st_avgsize s)
    (d_add (st_sum s) sum)
    (if d_gt (st_min s) lo then lo else st_min s)
    (if d_lt (st_max s) hi then hi else st_max s)
    (d_add (st_avgmin s) lo)
    (d_add (st_avgmax s) hi)
    (d_add (st_avgw s) (d_div (d_mul (d_of_nat z) sum) (d_of_nat m)))
    (d_add (st_avgu s) (d_div sum (d_of_nat m))).

(** src/utilities.c 309-313. *)
Definition finish_stats (s : stats) : stats :=
  Stats (st_n s) (st_assigned s) (st_k s) (st_pop s) (st_minsize s) (st_maxsize s)
    (d_div (d_of_nat (st_assigned s)) (d_of_nat (st_pop s)))
    (st_sum s) (st_min s) (st_max s)
    (d_div (st_avgmin s) (d_of_nat (st_pop s)))
    (d_div (st_avgmax s) (d_of_nat (st_pop s)))
    (d_div (st_avgw s) (d_of_nat (st_assigned s)))
    (d_div (st_avgu s) (d_of_nat (st_pop s))).

Definition set_min (s : stats) (x : double) : stats :=
  Stats (st_n s) (st_assigned s) (st_k s) (st_pop s) (st_minsize s) (st_maxsize s) (st_avgsize s) (st_sum s) x (st_max s) (st_avgmin s) (st_avgmax s) (st_avgw s) (st_avgu s).

Context (P : provider).

(** Loop over the clusters (src/utilities.c 265-307); [inr tt] if the distances
    could not be computed. *)
Definition dist_stats (ds : p_ds P) (k : nat) (sz ptr st : option (arr nat)) (d : option (arr double)) (s : stats) : M ((stats * option (arr double)) + unit) :=
  loopM k 0 (s, d) (fun c '(s, d) =>
    let* z := lift (aget sz c) in
    if decide (z < 2) then Mret (inl (if decide (z = 1) then set_min s d_zero else s, d)) else
    let m := z * (z - 1) / 2 in
    let* p := lift (aget ptr c) in
    let* r := dist_matrix P ds z (d_ptr p st) d in
    match r with
    | None => Mret (inr tt)
    | Some d =>
        let* r := lift (cluster_dists m d) in
        let '(sum, lo, hi) := r in
        Mret (inl (add_cluster s z m sum lo hi, d))
    end).

(** scc_get_clustering_stats (src/utilities.c 174-323); the second result is what
    is written to the output parameter. *)
Definition get_clustering_stats (ds : p_ds P) (cl : option clustering) (out : bool) : M (ecode * option stats) :=
  if negb out then let* ec := make_error_msg ER_INVALID_INPUT "Output parameter may not be NULL." src_util 179 in Mret (ec, None) else
  let fail (ec : ecode) : M (ecode * option stats) := Mret (ec, Some null_stats) in
  if negb (is_initialized_clustering cfg cl) then let* ec := make_error_msg ER_INVALID_INPUT "Invalid clustering object." src_util 183 in fail ec else
  match cl with
  | None => Mbad NullPtr
  | Some c =>
  if decide (c_k c = 0) then let* ec := make_error_msg ER_INVALID_INPUT "Empty clustering." src_util 186 in fail ec else
  if negb (p_check P ds) then let* ec := make_error_msg ER_INVALID_INPUT "Invalid data set object." src_util 189 in fail ec else
  if decide (p_num P ds <> c_n c) then
    let* ec := make_error_msg ER_INVALID_INPUT "Number of data points in data set does not match clustering object." src_util 192 in fail ec else
  let* sz := calloc_arr (c_k c) 0 in
  match sz with
  | None => let* ec := make_error ER_NO_MEMORY src_util 196 in fail ec
  | Some _ =>
  let* sz := lift (count_sizes c sz) in
  let* s := lift (size_stats (c_k c) sz (Stats (c_n c) 0 (c_k c) 0 u64max 0 d_zero d_zero d_max d_zero d_zero d_zero d_zero d_zero)) in
  if decide (st_pop s = 0) then
    let* _ := free_arr sz in Mret (ER_OK, Some s)
  else
  let* st := malloc_arr nat (st_assigned s) in
  let* ptr := malloc_arr nat (c_k c) in
  let* d := malloc_arr double (wrapN u64max (st_maxsize s * (st_maxsize s - 1)) / 2) in
  let clean := let* _ := free_arr sz in let* _ := free_arr st in let* _ := free_arr ptr in free_arr d in
  match st, ptr, d with
  | Some _, Some _, Some _ =>
      let* ptr := lift (member_ends (c_k c) sz ptr) in
      let* r := lift (fill_members c ptr st) in
      let '(ptr, st) := r in
      let* r := dist_stats ds (c_k c) sz ptr st d s in
      match r with
      | inr _ =>
          let* _ := clean in
          let* ec := make_error ER_DIST_SEARCH_ERROR src_util 277 in fail ec
      | inl (s, d) =>
          let* _ := clean in
          Mret (ER_OK, Some (finish_stats s))
      end
  | _, _, _ =>
      let* _ := clean in
      let* ec := make_error ER_NO_MEMORY src_util 248 in fail ec
  end
  end
  end.
End Util.
