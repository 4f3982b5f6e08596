(** Model of src/nng_findseeds.c, compiled with NDEBUG, with or without
    SCC_STABLE_FINDSEED. *)

From Coq Require Import Strings.String.
From stdpp Require Import prelude list.
From Coq Require Import NArith ZArith.
From Verif Require Import Base World Digraph Options.
Open Scope string_scope. Open Scope list_scope. Open Scope nat_scope.

(** struct iscc_SeedResult (src/nng_findseeds.h 34-38). *)
Record seed_result := SR {
  sr_cap : nat;
  sr_count : nat;
  sr_seeds : option (arr nat)
}.

(** struct iscc_fs_SortResult (src/nng_findseeds.c 40-45). The pointers stored in
    vertex_index and bucket_index point into sorted_vertices; they are
    represented by positions. *)
Record sort_result := Sort {
  so_count : option (arr nat);   (* inwards_count *)
  so_sv : option (arr nat);      (* sorted_vertices *)
  so_vi : option (arr nat);      (* vertex_index *)
  so_bi : option (arr nat)       (* bucket_index *)
}.

Section Seeds.
Context (cfg : config).

(** [++x] for x of type scc_PointIndex. Leaving the range of the type is
    undefined in the signed configuration and wraps in the others; the model
    treats both as an error. *)
Definition inc_pi (x : nat) : R nat :=
  if (N.of_nat (x + 1) <=? pi_max cfg)%N then Ok (x + 1) else Bad Arith.

(** iscc_fs_add_seed (src/nng_findseeds.c 494-518). *)
Definition add_seed (s : nat) (sr : seed_result) : M (ecode * seed_result) :=
  if (N.of_nat (sr_count sr) =? cl_max cfg)%N then
    let* ec := make_error_msg ER_TOO_LARGE_PROBLEM
      "Too many clusters (adjust the `scc_Clabel` type)." "src/nng_findseeds.c" 503 in
    Mret (ec, sr)
  else
    let* r :=
      (if decide (sr_count sr = sr_cap sr) then
         let cap := sr_cap sr + sr_cap sr / 8 + 1024 in
         let cap := if (cl_max cfg <? N.of_nat cap)%N then N.to_nat (cl_max cfg) else cap in
         let* p := realloc_arr (sr_seeds sr) cap in
         match p with
         | None =>
             let* ec := make_error ER_NO_MEMORY "src/nng_findseeds.c" 510 in
             Mret (ec, SR cap (sr_count sr) (sr_seeds sr))
         | Some _ => Mret (ER_OK, SR cap (sr_count sr) p)
         end
       else Mret (ER_OK, sr)) in
    let '(ec, sr) := r in
    if decide (ec <> ER_OK) then Mret (ec, sr) else
    let* p := lift (aset (sr_seeds sr) (sr_count sr) s) in
    Mret (ER_OK, SR (sr_cap sr) (sr_count sr + 1) p).

(** iscc_fs_check_neighbors_marks (src/nng_findseeds.c 521-536). *)
Definition check_neighbors_marks (v : nat) (nng : digraph) (marks : option (arr bool)) : R bool :=
  let! m := aget marks v in
  if (m : bool) then Ok false else
  let! lo := aget (dg_tail nng) v in
  let! hi := aget (dg_tail nng) (v + 1) in
  if decide (lo = hi) then Ok false else
  let! r := loop_arcs (T := bool) nng v tt (fun x _ =>
    let! m := aget marks x in
    if (m : bool) then Ok (inr false) else Ok (inl tt)) in
  match r with inr b => Ok b | inl _ => Ok true end.

(** iscc_fs_mark_seed_neighbors (src/nng_findseeds.c 539-553). *)
Definition mark_seed_neighbors (s : nat) (nng : digraph) (marks : option (arr bool))
    : R (option (arr bool)) :=
  let! marks := for_arcs nng s marks (fun x marks => aset marks x true) in
  aset marks s true.

(** iscc_fs_free_sort_result (src/nng_findseeds.c 556-564). *)
Definition free_sort_result (so : sort_result) : M unit :=
  let* _ := free_arr (so_count so) in
  let* _ := free_arr (so_sv so) in
  let* _ := free_arr (so_vi so) in
  free_arr (so_bi so).

(** iscc_fs_sort_by_inwards (src/nng_findseeds.c 567-648). The loops at 623-628
    and 630-634 count down from the last vertex. *)
Definition sort_by_inwards (nng : digraph) (make_indices : bool) : M (ecode * sort_result) :=
  let n := dg_n nng in
  let* ic := calloc_arr n 0 in
  let* sv := malloc_arr nat n in
  let so := Sort ic sv None None in
  if decide (ic = None \/ sv = None) then
    let* _ := free_sort_result so in
    let* ec := make_error ER_NO_MEMORY "src/nng_findseeds.c" 587 in
    Mret (ec, so)
  else
    let* r := lift (
      let! t := aget (dg_tail nng) n in
      let! ic := for_ptr 0 t ic (fun j ic =>
        let! x := aget (dg_head nng) j in
        let! c := aget ic x in
        let! c := inc_pi c in
        aset ic x c) in
      let! mx := forR n 0 0 (fun v mx =>
        let! c := aget ic v in
        Ok (if decide (mx < c) then c else mx)) in
      Ok (ic, mx)) in
    let '(ic, mx) := r in
    let* bc := calloc_arr (mx + 1) 0 in
    let* bi := malloc_arr nat (mx + 1) in
    let so := Sort ic sv None bi in
    if decide (bc = None \/ bi = None) then
      let* _ := free_arr bc in
      let* _ := free_sort_result so in
      let* ec := make_error ER_NO_MEMORY "src/nng_findseeds.c" 608 in
      Mret (ec, so)
    else
      let* bi := lift (
        let! bc := forR n 0 bc (fun v bc =>
          let! c := aget ic v in
          let! b := aget bc c in
          aset bc c (b + 1)) in
        let! b0 := aget bc 0 in
        let! bi := aset bi 0 b0 in
        forR mx 1 bi (fun b bi =>
          let! p := aget bi (b - 1) in
          let! c := aget bc b in
          aset bi b (p + c))) in
      let* _ := free_arr bc in
      let* vi := (if make_indices then malloc_arr nat n else Mret None) in
      let so := Sort ic sv vi bi in
      if decide (make_indices = true /\ vi = None) then
        let* _ := free_sort_result so in
        let* ec := make_error ER_NO_MEMORY "src/nng_findseeds.c" 626 in
        Mret (ec, so)
      else
        let* r := lift (forR n 0 (sv, vi, bi) (fun i '(sv, vi, bi) =>
          let v := n - 1 - i in
          let! c := aget ic v in
          let! b := aget bi c in
          if decide (b = 0) then Bad Oob else
          let! bi := aset bi c (b - 1) in
          let! sv := aset sv (b - 1) v in
          let! vi := (if make_indices then aset vi v (b - 1) else Ok vi) in
          Ok (sv, vi, bi))) in
        let '(sv, vi, bi) := r in
        if make_indices then Mret (ER_OK, Sort ic sv vi bi)
        else
          let* _ := free_arr ic in
          let* _ := free_arr bi in
          Mret (ER_OK, Sort None sv vi None).

(** The loop of iscc_fs_debug_bucket_sort (src/nng_findseeds.c 712-717) with the
    position where it ends. A position before the start of the bucket would be
    decremented past the start of sorted_vertices. *)
Fixpoint bucket_shift (start t pos : nat) (sv vi : option (arr nat)) : R (nat * option (arr nat) * option (arr nat)) :=
  if decide (pos = start) then Ok (pos, sv, vi) else
  match pos with
  | 0 => Bad Oob
  | S p =>
      let! y := aget sv p in
      if decide (y <= t) then Ok (pos, sv, vi) else
      let! sv := aset sv pos y in
      let! u := aget sv pos in
      let! vi := aset vi u pos in
      bucket_shift start t p sv vi
  end.

(** iscc_fs_debug_bucket_sort (src/nng_findseeds.c 706-720). *)
Definition bucket_sort (start pos : nat) (sv vi : option (arr nat)) : R (option (arr nat) * option (arr nat)) :=
  let! t := aget sv pos in
  let! r := bucket_shift start t pos sv vi in
  let '(pos, sv, vi) := r in
  let! sv := aset sv pos t in
  let! u := aget sv pos in
  let! vi := aset vi u pos in
  Ok (sv, vi).

(** The part of iscc_fs_decrease_v_in_sort that is compiled with
    SCC_STABLE_FINDSEED (src/nng_findseeds.c 687-699). *)
Definition sort_buckets (v from to cur : nat) (so : sort_result) : R sort_result :=
  let! r := (if decide (to <> from) then bucket_sort (to + 1) from (so_sv so) (so_vi so)
             else Ok (so_sv so, so_vi so)) in
  let '(sv, vi) := r in
  let! c := aget (so_count so) v in
  let! b := aget (so_bi so) c in
  let! bi := (if decide (b <= cur) then aset (so_bi so) c (cur + 1) else Ok (so_bi so)) in
  let! b := aget bi c in
  let! r := bucket_sort b to sv vi in
  let '(sv, vi) := r in
  Ok (Sort (so_count so) sv vi bi).

(** iscc_fs_decrease_v_in_sort (src/nng_findseeds.c 651-701). A count of zero
    would make the index [inwards_count[v] - 1] and the decrement leave the
    range of the type. *)
Definition decrease_v_in_sort (v : nat) (so : sort_result) (cur : nat) : R sort_result :=
  let! from := aget (so_vi so) v in
  let! c := aget (so_count so) v in
  let! b := aget (so_bi so) c in
  if decide (c = 0) then Bad Arith else
  let! r := (if decide (b <= cur) then
               let! bi := aset (so_bi so) (c - 1) (cur + 1) in Ok (cur + 1, bi)
             else Ok (b, so_bi so)) in
  let '(to, bi) := r in
  let! bi := aset bi c (to + 1) in
  let! ic := aset (so_count so) v (c - 1) in
  let! x := aget (so_sv so) to in
  let! sv := aset (so_sv so) from x in
  let! sv := aset sv to v in
  let! u := aget sv to in
  let! vi := aset (so_vi so) u to in
  let! u := aget sv from in
  let! vi := aset vi u from in
  if stable_seeds cfg then sort_buckets v from to cur (Sort ic sv vi bi) else Ok (Sort ic sv vi bi).

(** iscc_findseeds_lexical (src/nng_findseeds.c 181-220). *)
Definition findseeds_lexical (nng : digraph) (sr : seed_result) : M (ecode * seed_result) :=
  let* marks := calloc_arr (dg_n nng) false in
  let* seeds := malloc_arr nat (sr_cap sr) in
  let sr := SR (sr_cap sr) (sr_count sr) seeds in
  if decide (marks = None \/ seeds = None) then
    let* _ := free_arr marks in
    let* _ := free_arr seeds in
    let* ec := make_error ER_NO_MEMORY "src/nng_findseeds.c" 197 in
    Mret (ec, sr)
  else
    let* r := loopM (dg_n nng) 0 (marks, sr) (fun v '(marks, sr) =>
      let* c := lift (check_neighbors_marks v nng marks) in
      if (c : bool) then
        let* r := add_seed v sr in
        let '(ec, sr) := r in
        if decide (ec <> ER_OK) then
          let* _ := free_arr marks in
          let* _ := free_arr (sr_seeds sr) in
          Mret (inr (ec, sr))
        else
          let* marks := lift (mark_seed_neighbors v nng marks) in
          Mret (inl (marks, sr))
      else Mret (inl (marks, sr))) in
    match r with
    | inr r => Mret r
    | inl (marks, sr) =>
        let* _ := free_arr marks in
        Mret (ER_OK, sr)
    end.

(** The condition "vertex can be seed" of src/nng_findseeds.c 277 and 289:
    not marked, behind the current position, and with arcs in the graph. *)
Definition can_decrease (nng : digraph) (marks : option (arr bool)) (so : sort_result)
    (cur x : nat) : R bool :=
  let! m := aget marks x in
  if (m : bool) then Ok false else
  let! p := aget (so_vi so) x in
  if decide (cur < p) then
    let! lo := aget (dg_tail nng) x in
    let! hi := aget (dg_tail nng) (x + 1) in
    Ok (bool_decide (lo <> hi))
  else Ok false.

(** The update after a new seed (src/nng_findseeds.c 266-283). *)
Definition inwards_update_seed (nng : digraph) (marks : option (arr bool)) (cur v : nat)
    (so : sort_result) : R sort_result :=
  for_arcs nng v so (fun x so =>
    let! p := aget (so_vi so) x in
    if decide (cur < p) then
      for_arcs nng x so (fun y so =>
        let! c := can_decrease nng marks so cur y in
        if (c : bool) then decrease_v_in_sort y so cur else Ok so)
    else Ok so).

(** The update after a vertex that is not assigned but cannot become a seed
    (src/nng_findseeds.c 285-293). *)
Definition inwards_update_skip (nng : digraph) (marks : option (arr bool)) (cur v : nat)
    (so : sort_result) : R sort_result :=
  for_arcs nng v so (fun x so =>
    let! c := can_decrease nng marks so cur x in
    if (c : bool) then decrease_v_in_sort x so cur else Ok so).

(** One iteration of the loop of iscc_findseeds_inwards (src/nng_findseeds.c
    250-294). *)
Definition inwards_step (nng : digraph) (updating : bool) (cur : nat)
    (s : option (arr bool) * seed_result * sort_result)
    : M ((option (arr bool) * seed_result * sort_result) + (ecode * seed_result)) :=
  let '(marks, sr, so) := s in
  let* v := lift (aget (so_sv so) cur) in
  let* c := lift (check_neighbors_marks v nng marks) in
  if (c : bool) then
    let* r := add_seed v sr in
    let '(ec, sr) := r in
    if decide (ec <> ER_OK) then
      let* _ := free_sort_result so in
      let* _ := free_arr marks in
      let* _ := free_arr (sr_seeds sr) in
      Mret (inr (ec, sr))
    else
      let* marks := lift (mark_seed_neighbors v nng marks) in
      let* so := lift (if updating then inwards_update_seed nng marks cur v so else Ok so) in
      Mret (inl (marks, sr, so))
  else if updating then
    let* m := lift (aget marks v) in
    let* so := lift (if (m : bool) then Ok so else inwards_update_skip nng marks cur v so) in
    Mret (inl (marks, sr, so))
  else Mret (inl (marks, sr, so)).

(** iscc_findseeds_inwards (src/nng_findseeds.c 223-300). *)
Definition findseeds_inwards (nng : digraph) (updating : bool) (sr : seed_result)
    : M (ecode * seed_result) :=
  let* r := sort_by_inwards nng updating in
  let '(ec, so) := r in
  if decide (ec <> ER_OK) then Mret (ec, sr) else
  let* marks := calloc_arr (dg_n nng) false in
  let* seeds := malloc_arr nat (sr_cap sr) in
  let sr := SR (sr_cap sr) (sr_count sr) seeds in
  if decide (marks = None \/ seeds = None) then
    let* _ := free_sort_result so in
    let* _ := free_arr marks in
    let* _ := free_arr seeds in
    let* ec := make_error ER_NO_MEMORY "src/nng_findseeds.c" 245 in
    Mret (ec, sr)
  else
    let* r := loopM (dg_n nng) 0 (marks, sr, so) (inwards_step nng updating) in
    match r with
    | inr r => Mret r
    | inl (marks, sr, so) =>
        let* _ := free_sort_result so in
        let* _ := free_arr marks in
        Mret (ER_OK, sr)
    end.

(** iscc_fs_exclusion_graph (src/nng_findseeds.c 457-491). *)
Definition exclusion_graph (nng : digraph) (not_excluded : option (list nat))
    : M (ecode * digraph) :=
  let* r := digraph_transpose cfg nng in
  let '(ec, tr) := r in
  if decide (ec <> ER_OK) then Mret (ec, dg_null) else
  let* r := adjacency_product cfg nng tr true in
  let '(ec, prod) := r in
  let* _ := free_digraph tr in
  if decide (ec <> ER_OK) then Mret (ec, dg_null) else
  let* r := digraph_union_and_delete cfg [nng; prod] not_excluded false in
  let '(ec, out) := r in
  let* _ := free_digraph prod in
  if decide (ec <> ER_OK) then Mret (ec, dg_null) else
  Mret (ER_OK, out).

(** Second pass of the update (src/nng_findseeds.c 403-418): decrease the counts
    of the neighbours, that are not excluded, of the vertices just excluded. *)
Definition exclusion_decrease (ex : digraph) (ne : option (arr bool)) (lo wr cur : nat)
    (so : sort_result) : R sort_result :=
  for_ptr lo wr so (fun j so =>
    let! x := aget (dg_head ex) j in
    for_arcs ex x so (fun y so =>
      let! m := aget ne y in
      if (m : bool) then decrease_v_in_sort y so cur else Ok so)).

(** First pass of the update (src/nng_findseeds.c 388-401): exclude the
    neighbours of the seed and collect those newly excluded in place. *)
Definition exclusion_collect (lo hi : nat) (head : option (arr nat)) (ne : option (arr bool))
    : R (option (arr nat) * option (arr bool) * nat) :=
  for_ptr lo hi (head, ne, lo) (fun j '(head, ne, wr) =>
    let! x := aget head j in
    let! m := aget ne x in
    let! r := (if (m : bool) then
                 let! head := aset head wr x in Ok (head, wr + 1)
               else Ok (head, wr)) in
    let '(head, wr) := r in
    let! ne := aset ne x false in
    Ok (head, ne, wr)).

(** One iteration of the loop of iscc_findseeds_exclusion (src/nng_findseeds.c
    361-428). *)
Definition exclusion_step (updating : bool) (cur : nat)
    (s : option (arr bool) * digraph * seed_result * sort_result)
    : M ((option (arr bool) * digraph * seed_result * sort_result) + (ecode * seed_result)) :=
  let '(ne, ex, sr, so) := s in
  let* v := lift (aget (so_sv so) cur) in
  let* c := lift (aget ne v) in
  if (c : bool) then
    let* r := add_seed v sr in
    let '(ec, sr) := r in
    if decide (ec <> ER_OK) then
      let* _ := free_arr ne in
      let* _ := free_digraph ex in
      let* _ := free_sort_result so in
      let* _ := free_arr (sr_seeds sr) in
      Mret (inr (ec, sr))
    else
      let* ne := lift (aset ne v false) in
      if updating then
        let* r := lift (
          let! lo := aget (dg_tail ex) v in
          let! hi := aget (dg_tail ex) (v + 1) in
          let! r := exclusion_collect lo hi (dg_head ex) ne in
          let '(head, ne, wr) := r in
          let ex := DG (dg_n ex) (dg_max ex) head (dg_tail ex) in
          let! so := exclusion_decrease ex ne lo wr cur so in
          Ok (ne, ex, so)) in
        let '(ne, ex, so) := r in
        Mret (inl (ne, ex, sr, so))
      else
        let* ne := lift (for_arcs ex v ne (fun x ne => aset ne x false)) in
        Mret (inl (ne, ex, sr, so))
  else Mret (inl (ne, ex, sr, so)).

(** iscc_findseeds_exclusion (src/nng_findseeds.c 303-437). After a failed
    allocation of tmp_index_not_excluded the code records the error but goes on
    (316-319); [ne] then is freed memory, and the next write through the NULL
    pointer is undefined behaviour. *)
Definition findseeds_exclusion (nng : digraph) (updating : bool) (sr : seed_result)
    : M (ecode * seed_result) :=
  let n := dg_n nng in
  let* ne := malloc_arr bool n in
  match ne with
  | None =>
      let* ec := make_error ER_NO_MEMORY "src/nng_findseeds.c" 316 in
      Mret (ec, sr)
  | Some _ =>
    let* tmp := malloc_arr nat n in
    let* _ := (match tmp with
               | None =>
                   let* _ := free_arr ne in
                   let* _ := make_error ER_NO_MEMORY "src/nng_findseeds.c" 323 in
                   Mret tt
               | Some _ => Mret tt
               end) in
    let* r := lift (forR n 0 (ne, tmp, 0) (fun v '(ne, tmp, num) =>
      let! lo := aget (dg_tail nng) v in
      let! hi := aget (dg_tail nng) (v + 1) in
      let! ne := aset ne v (bool_decide (lo <> hi)) in
      let! tmp := aset tmp num v in
      Ok (ne, tmp, if decide (lo <> hi) then num + 1 else num))) in
    let '(ne, tmp, num) := r in
    let* r := (if decide (num = n) then
                 let* _ := free_arr tmp in Mret (None, 0)
               else Mret (tmp, num)) in
    let '(tmp, num) := r in
    let* keep := lift (match tmp with
                       | None => Ok None
                       | Some a =>
                           let! l := forR num 0 [] (fun i acc =>
                             let! x := cget (a_cells a) i in Ok (acc ++ [x])) in
                           Ok (Some l)
                       end) in
    let* r := exclusion_graph nng keep in
    let '(ec, ex) := r in
    if decide (ec <> ER_OK) then
      let* _ := free_arr ne in
      Mret (ec, sr)
    else
      let* _ := free_arr tmp in
      let* r := sort_by_inwards ex updating in
      let '(ec, so) := r in
      if decide (ec <> ER_OK) then
        let* _ := free_arr ne in
        let* _ := free_digraph ex in
        Mret (ec, sr)
      else
        let* seeds := malloc_arr nat (sr_cap sr) in
        let sr := SR (sr_cap sr) (sr_count sr) seeds in
        match seeds with
        | None =>
            let* _ := free_arr ne in
            let* _ := free_digraph ex in
            let* _ := free_sort_result so in
            let* ec := make_error ER_NO_MEMORY "src/nng_findseeds.c" 367 in
            Mret (ec, sr)
        | Some _ =>
            let* r := loopM n 0 (ne, ex, sr, so) (exclusion_step updating) in
            match r with
            | inr r => Mret r
            | inl (ne, ex, sr, so) =>
                let* _ := free_arr ne in
                let* _ := free_digraph ex in
                let* _ := free_sort_result so in
                Mret (ER_OK, sr)
            end
        end
  end.

(** iscc_find_seeds (src/nng_findseeds.c 122-174). *)
Definition find_seeds (nng : digraph) (sm : seed_method) (sr : seed_result)
    : M (ecode * seed_result) :=
  let* r :=
    (match sm with
     | SM_LEXICAL => findseeds_lexical nng sr
     | SM_INWARDS_ORDER => findseeds_inwards nng false sr
     | SM_INWARDS_UPDATING => findseeds_inwards nng true sr
     | SM_EXCLUSION_ORDER => findseeds_exclusion nng false sr
     | SM_EXCLUSION_UPDATING => findseeds_exclusion nng true sr
     | SM_BATCHES | SM_OTHER =>
         let* ec := make_error ER_UNKNOWN_ERROR "src/nng_findseeds.c" 158 in Mret (ec, sr)
     end) in
  let '(ec, sr) := r in
  if decide (ec <> ER_OK) then Mret (ec, sr) else
  if decide (sr_count sr < sr_cap sr /\ 0 < sr_count sr) then
    let* p := realloc_arr (sr_seeds sr) (sr_count sr) in
    match p with
    | None => Mret (ER_OK, sr)
    | Some _ => Mret (ER_OK, SR (sr_count sr) (sr_count sr) p)
    end
  else Mret (ER_OK, sr).

End Seeds.
