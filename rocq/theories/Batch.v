(** Batch clustering (src/nng_batch_clustering.c). *)

From Coq Require Import Strings.String.
From stdpp Require Import prelude list.
From Coq Require Import NArith ZArith.
From Verif Require Import Base World Mem Float Spi Options Arrays SortIdx Nng.
Open Scope string_scope. Open Scope list_scope. Open Scope nat_scope.

Definition src_batch : string := "src/nng_batch_clustering.c".

Section Batch.
Context (cfg : config) (P : provider).

(** Collection of one batch (src/nng_batch_clustering.c 218-237), from
    curr_point on. State: curr_point, in_batch, cluster_label,
    batch_indices. Each iteration looks at one point; [n - curr] of them suffice
    to reach the end. *)
Definition collect_batch (n : nat) (prim : option (arr bool)) (assigned : option (arr bool)) (batch_size : nat)
    (curr : nat) (lab : option (arr Z)) (bi : option (arr nat))
    : R (nat * nat * option (arr Z) * option (arr nat)) :=
  let! r := loopR (n - curr) curr (curr, 0, lab, bi) (fun _ '(curr, nb, lab, bi) =>
    if decide (nb < batch_size) then
      let! a := aget assigned curr in
      if (a : bool) then Ok (inl (curr + 1, nb, lab, bi)) else
      let! lab := aset lab curr (cl_na cfg) in
      let! p := match prim with None => Ok true | Some _ => aget prim curr end in
      if (p : bool) then
        let! bi := aset bi nb curr in
        Ok (inl (curr + 1, nb + 1, lab, bi))
      else Ok (inl (curr + 1, nb, lab, bi))
    else Ok (inr (curr, nb, lab, bi))) in
  match r with inl s => Ok s | inr s => Ok s end.

(** The first assigned neighbour among out_indices[base .. base + size - 1]
    (src/nng_batch_clustering.c 268). *)
Definition first_assigned (assigned : option (arr bool)) (out : option (arr nat)) (base size : nat) : R (option nat) :=
  let! r := loopR (T := nat) size 0 tt (fun j _ =>
    let! x := aget out (base + j) in
    let! a := aget assigned x in
    if (a : bool) then Ok (inr x) else Ok (inl tt)) in
  match r with inl _ => Ok None | inr x => Ok (Some x) end.

Definition assign_to (assigned : option (arr bool)) (lab : option (arr Z)) (x : nat) (label : nat)
    : R (option (arr bool) * option (arr Z)) :=
  let! assigned := aset assigned x true in
  let! lab := aset lab x (Z.of_nat label) in
  Ok (assigned, lab).

(** Point [i] of a batch (src/nng_batch_clustering.c 265-310). [inr]: too many
    clusters. *)
Definition batch_point (size : nat) (ign : bool) (bi out : option (arr nat)) (i : nat)
    (s : option (arr bool) * option (arr Z) * nat) : R (option (arr bool) * option (arr Z) * nat + option (arr Z)) :=
  let '(assigned, lab, next) := s in
  let! v := aget bi i in
  let! a := aget assigned v in
  if (a : bool) then Ok (inl s) else
  let! f := first_assigned assigned out (i * size) size in
  match f with
  | None =>
      if decide (N.of_nat next = cl_max cfg) then Ok (inr lab) else
      let! s := forR (size - 1) 0 (assigned, lab) (fun j '(assigned, lab) =>
        let! x := aget out (i * size + j) in
        assign_to assigned lab x next) in
      let '(assigned, lab) := s in
      let! a := aget assigned v in
      let! x := if (a : bool) then aget out (i * size + (size - 1)) else Ok v in
      let! s := assign_to assigned lab x next in
      let '(assigned, lab) := s in
      Ok (inl (assigned, lab, next + 1))
  | Some x =>
      if ign then Ok (inl s) else
      let! l := aget lab x in
      let! lab := aset lab v l in
      Ok (inl (assigned, lab, next))
  end.

(** State of the loop over the batches: curr_point, search_done,
    next_cluster_label, cluster_label, batch_indices, out_indices, assigned. *)
Notation batch_state := (nat * bool * nat * option (arr Z) * option (arr nat) * option (arr nat) * option (arr bool))%type.

(** The sorting that is compiled with SCC_STABLE_NNG
    (src/nng_batch_clustering.c 258-262). *)
Definition sort_blocks (num_ok size : nat) (out : option (arr nat)) : R (option (arr nat)) :=
  forR num_ok 0 out (fun i out => qsort_run out (i * size) size).

(** One iteration of that loop (src/nng_batch_clustering.c 216-311). [inr]
    leaves it, with the error that iscc_run_nng_batches returns, if any. *)
Definition batch_iter (o : p_nn P) (n size : nat) (ign : bool) (rad : option double) (prim : option (arr bool))
    (batch_size : nat) (st : batch_state) : M (batch_state + (option ecode * batch_state)) :=
  let '(curr, sd, next, lab, bi, out, assigned) := st in
  if decide (curr < n) then
    let* r := lift (collect_batch n prim assigned batch_size curr lab bi) in
    let '(curr, nb, lab, bi) := r in
    if decide (nb = 0) then Mret (inr (None, (curr, sd, next, lab, bi, out, assigned))) else
    let* r := nn_search P o nb (acells bi) size rad (Some bi) out in
    match r with
    | None =>
        let* ec := make_error ER_DIST_SEARCH_ERROR src_batch 255 in
        Mret (inr (Some ec, (curr, true, next, lab, bi, out, assigned)))
    | Some (num_ok, bi', out) =>
        let bi := match bi' with Some b => b | None => bi end in
        let* out := lift (if stable_nng cfg then sort_blocks num_ok size out else Ok out) in
        let* r := lift (loopR num_ok 0 (assigned, lab, next) (batch_point size ign bi out)) in
        match r with
        | inl (assigned, lab, next) => Mret (inl (curr, true, next, lab, bi, out, assigned))
        | inr lab =>
            let* ec := make_error_msg ER_TOO_LARGE_PROBLEM "Too many clusters (adjust the `scc_Clabel` type)." src_batch 272 in
            Mret (inr (Some ec, (curr, true, next, lab, bi, out, assigned)))
        end
    end
  else Mret (inr (None, st)).

(** iscc_run_nng_batches (src/nng_batch_clustering.c 187-328). The result also
    has the buffers, for their owner to free. [n + 1] iterations suffice
    ([Msat_run_batches]); running out of them is the outcome [FuelOut]. *)
Definition run_batches (cl : clustering) (o : p_nn P) (size : nat) (ign : bool) (rad : option double)
    (prim : option (arr bool)) (batch_size : nat) (bi out : option (arr nat)) (assigned : option (arr bool))
    : M (ecode * clustering * option (arr nat) * option (arr nat) * option (arr bool)) :=
  let* r := loopM (c_n cl + 1) 0 (0, false, 0, c_label cl, bi, out, assigned)
    (fun _ st => batch_iter o (c_n cl) size ign rad prim batch_size st) in
  match r with
  | inl _ => Mbad FuelOut
  | inr (ec, (curr, sd, next, lab, bi, out, assigned)) =>
      let cl := set_label cl lab in
      match ec with
      | Some ec => Mret (ec, cl, bi, out, assigned)
      | None =>
          if decide (next = 0) then
            let* ec := (if (sd : bool)
                        then make_error_msg ER_NO_SOLUTION "Infeasible radius constraint." src_batch 321
                        else make_error_msg ER_NO_SOLUTION "No primary data points." src_batch 317) in
            Mret (ec, cl, bi, out, assigned)
          else Mret (ER_OK, set_k cl next, bi, out, assigned)
      end
  end.

(** scc_nng_clustering_batches (src/nng_batch_clustering.c 63-168). [rad] is
    [None] if radius_constraint is false. size_constraint and batch_size are
    uint32_t, and so is their product. *)
Definition nng_clustering_batches (cl : clustering) (ds : p_ds P) (size : nat) (um : unassigned_method)
    (rad : option double) (len_prim : nat) (prim : option (list nat)) (batch_size : nat) : M (ecode * clustering) :=
  let err ec msg line := let* ec := make_error_msg ec msg src_batch line in Mret (ec, cl) in
  if negb (is_initialized_clustering cfg (Some cl)) then
    err ER_INVALID_INPUT "Invalid clustering object." 74%Z
  else if negb (p_check P ds) then
    err ER_INVALID_INPUT "Invalid data set object." 77%Z
  else if decide (p_num P ds <> c_n cl) then
    err ER_INVALID_INPUT "Number of data points in data set does not match clustering object." 80%Z
  else if decide (size < 2) then
    err ER_INVALID_INPUT "Size constraint must be 2 or greater." 83%Z
  else if decide (c_n cl < size) then
    err ER_NO_SOLUTION "Fewer data points than size constraint." 86%Z
  else if decide (um <> UM_IGNORE /\ um <> UM_ANY_NEIGHBOR) then
    err ER_INVALID_INPUT "Invalid unassigned method." 89%Z
  else if match rad with Some r => d_le r d_zero | None => false end then
    err ER_INVALID_INPUT "Invalid radius." 92%Z
  else if decide (is_Some prim /\ len_prim = 0) then
    err ER_INVALID_INPUT "Invalid primary data points." 95%Z
  else if decide (prim = None /\ 0 < len_prim) then
    err ER_INVALID_INPUT "Invalid primary data points." 98%Z
  else if decide (c_k cl <> 0) then
    err ER_NOT_IMPLEMENTED "Cannot refine existing clusterings." 101%Z
  else
  let n := c_n cl in
  let batch := if decide (batch_size = 0) then u32max else N.of_nat batch_size in
  let batch_size := if (N.of_nat n <? batch)%N then n else N.to_nat batch in
  let* o := nn_init P ds n None in
  match o with
  | None => let* ec := make_error ER_DIST_SEARCH_ERROR src_batch 114 in Mret (ec, cl)
  | Some o =>
    let* bi := malloc_arr nat batch_size in
    let* out := malloc_arr nat (wrapN u32max (size * batch_size)) in
    let* assigned := calloc_arr n false in
    let cleanup :=
      let* _ := free_arr bi in
      let* _ := free_arr out in
      let* _ := free_arr assigned in
      let* _ := p_nn_close P o in
      Mret tt in
    match bi, out, assigned with
    | Some _, Some _, Some _ =>
        let* r :=
          (match c_label cl with
           | Some _ => Mret (Some cl)
           | None =>
               let* l := malloc_arr Z n in
               match l with
               | None => Mret None
               | Some _ => Mret (Some (Clu (c_version cl) (c_n cl) (c_k cl) l false))
               end
           end) in
        match r with
        | None =>
            let* _ := cleanup in
            let* ec := make_error ER_NO_MEMORY src_batch 137 in
            Mret (ec, Clu (c_version cl) (c_n cl) (c_k cl) None false)
        | Some cl =>
            let* tmp :=
              (match prim with
               | None => Mret None
               | Some p =>
                   let* t := calloc_arr n false in
                   lift (forR len_prim 0 t (fun i t =>
                     let! x := lget p i in
                     aset t x true))
               end) in
            let* r := run_batches cl o size (bool_decide (um = UM_IGNORE)) rad tmp batch_size bi out assigned in
            let '(ec, cl, bi, out, assigned) := r in
            let* _ := free_arr bi in
            let* _ := free_arr out in
            let* _ := free_arr assigned in
            let* _ := free_arr tmp in
            let* _ := p_nn_close P o in
            Mret (ec, cl)
        end
    | _, _, _ =>
        let* _ := cleanup in
        let* ec := make_error ER_NO_MEMORY src_batch 125 in
        Mret (ec, cl)
    end
  end.
End Batch.
