(** Size constrained clustering (src/nng_clustering.c). *)

From Coq Require Import Strings.String.
From stdpp Require Import prelude list.
From Coq Require Import NArith ZArith.
From Verif Require Import Base World Mem Digraph Float Spi Options Arrays Seeds Nng Batch.
Open Scope string_scope. Open Scope list_scope. Open Scope nat_scope.

Definition src_nngc : string := "src/nng_clustering.c".

(** Radius for an assignment stage before estimation
    (src/nng_clustering.c 153-176). *)
Definition stage_radius (um : unassigned_method) (rm : radius_method) (v : double) (srm : radius_method) (sv : double)
    : radius_method * double :=
  let '(rm, v) := if decide (um = UM_IGNORE) then (RM_NO_RADIUS, d_zero) else (rm, v) in
  if decide (rm = RM_USE_SEED_RADIUS) then (srm, sv) else (rm, v).

(** Substitution of the estimate (src/nng_clustering.c 190-209). [None]: the
    estimate is not positive. *)
Definition use_estimate (r : radius_method * double) (avg : double) : option (radius_method * double) :=
  if decide (r.1 = RM_USE_ESTIMATED) then
    if d_gt avg d_zero then Some (RM_USE_SUPPLIED, avg) else None
  else Some r.

(** The radius arguments of iscc_make_nng_clusters_from_seeds. *)
Definition radius_arg (r : radius_method * double) : option double :=
  if decide (r.1 = RM_USE_SUPPLIED) then Some r.2 else None.

Section NngClustering.
Context (cfg : config) (P : provider).

(** From the seeds and the two radii on (src/nng_clustering.c 215-240). *)
Definition cluster_seeds (cl : clustering) (ds : p_ds P) (nng : digraph) (o : options) (sr : seed_result)
    (r1 r2 : radius_method * double) : M (ecode * clustering * digraph) :=
  let* r :=
    (match c_label cl with
     | Some _ => Mret (Some cl)
     | None =>
         let* l := malloc_arr Z (c_n cl) in
         match l with
         | None => Mret None
         | Some _ => Mret (Some (Clu (c_version cl) (c_n cl) (c_k cl) l false))
         end
     end) in
  match r with
  | None =>
      let* _ := free_arr (sr_seeds sr) in
      let* ec := make_error ER_NO_MEMORY src_nngc 221 in
      Mret (ec, Clu (c_version cl) (c_n cl) (c_k cl) None false, nng)
  | Some cl =>
      let* r := make_nng_clusters_from_seeds cfg P cl ds sr nng (bool_decide (o_num_types o < 2))
                  (o_pum o) (radius_arg r1) (o_len_prim o) (o_prim o) (o_sum o) (radius_arg r2) in
      let* _ := free_arr (sr_seeds sr) in
      Mret r
  end.

(** iscc_make_clustering_from_nng (src/nng_clustering.c 131-241). Result: error
    code, clustering and the digraph, which may have been freed. *)
Definition make_clustering_from_nng (cl : clustering) (ds : p_ds P) (nng : digraph) (o : options)
    : M (ecode * clustering * digraph) :=
  let* r := find_seeds cfg nng (o_seed o) (SR (1 + c_n cl / o_size o) 0 None) in
  let '(ec, sr) := r in
  if decide (ec <> ER_OK) then Mret (ec, cl, nng) else
  let r1 := stage_radius (o_pum o) (o_prad o) (o_prad_val o) (o_srad o) (o_srad_val o) in
  let r2 := stage_radius (o_sum o) (o_2rad o) (o_2rad_val o) (o_srad o) (o_srad_val o) in
  if decide (r1.1 = RM_USE_ESTIMATED \/ r2.1 = RM_USE_ESTIMATED) then
    let* e := estimate_avg_seed_dist P ds sr nng (o_size o) in
    let '(ec, avg) := e in
    if decide (ec <> ER_OK) then
      let* _ := free_arr (sr_seeds sr) in Mret (ec, cl, nng)
    else
    match use_estimate r1 avg with
    | None =>
        let* _ := free_arr (sr_seeds sr) in
        let* ec := make_error_msg ER_NO_SOLUTION "Infeasible radius constraint." src_nngc 197 in
        Mret (ec, cl, nng)
    | Some r1 =>
    match use_estimate r2 avg with
    | None =>
        let* _ := free_arr (sr_seeds sr) in
        let* ec := make_error_msg ER_NO_SOLUTION "Infeasible radius constraint." src_nngc 207 in
        Mret (ec, cl, nng)
    | Some r2 => cluster_seeds cl ds nng o sr r1 r2
    end
    end
  else cluster_seeds cl ds nng o sr r1 r2.

(** The seed radius (src/nng_clustering.c 78-79, 93-94, 107-108). *)
Definition seed_radius (o : options) : option double := radius_arg (o_srad o, o_srad_val o).

(** scc_sc_clustering (src/nng_clustering.c 52-124). *)
Definition sc_clustering (ds : p_ds P) (opt : option options) (cl : option clustering)
    : M (ecode * option clustering) :=
  let err ec msg line := let* ec := make_error_msg ec msg src_nngc line in Mret (ec, cl) in
  match cl with
  | None => err ER_INVALID_INPUT "Invalid clustering object." 57%Z
  | Some c =>
  if negb (is_initialized_clustering cfg (Some c)) then
    err ER_INVALID_INPUT "Invalid clustering object." 57%Z
  else if negb (p_check P ds) then
    err ER_INVALID_INPUT "Invalid data set object." 60%Z
  else if decide (p_num P ds <> c_n c) then
    err ER_INVALID_INPUT "Number of data points in data set does not match clustering object." 63%Z
  else
  let* ec := check_cluster_options opt (c_n c) in
  if decide (ec <> ER_OK) then Mret (ec, cl) else
  match opt with
  | None => Mbad NullPtr
  | Some o =>
  if decide (c_k c <> 0) then
    err ER_NOT_IMPLEMENTED "Cannot refine existing clusterings." 70%Z
  else if decide (o_seed o = SM_BATCHES) then
    let* r := nng_clustering_batches cfg P c ds (o_size o) (o_pum o) (seed_radius o) (o_len_prim o) (o_prim o) (o_batch o) in
    Mret (r.1, Some r.2)
  else
  let* r :=
    (if decide (o_num_types o < 2) then
       get_nng_with_size_constraint cfg P ds (c_n c) (o_size o) (o_len_prim o) (o_prim o) (seed_radius o)
     else
       match o_tcons o, o_tlabels o with
       | Some tcons, Some tlabels =>
           get_nng_with_type_constraint cfg P ds (c_n c) (o_size o) (o_num_types o) tcons tlabels
             (o_len_prim o) (o_prim o) (seed_radius o)
       | _, _ => Mbad NullPtr
       end) in
  let '(ec, nng) := r in
  if decide (ec <> ER_OK) then Mret (ec, cl) else
  let* r := make_clustering_from_nng c ds nng o in
  let '(ec, c, nng) := r in
  let* _ := free_digraph nng in
  Mret (ec, Some c)
  end
  end.
End NngClustering.
