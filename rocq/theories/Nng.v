(** Model of src/nng_core.c. Asserts are compiled out (NDEBUG); with or without
    SCC_STABLE_NNG. *)

From Coq Require Import Strings.String.
From stdpp Require Import prelude list.
From Coq Require Import NArith ZArith.
From Verif Require Import Base World Digraph Float Spi Options Seeds SortIdx.
Open Scope string_scope. Open Scope list_scope. Open Scope nat_scope.

Definition src_nng : string := "src/nng_core.c".

(** A digraph variable that was never assigned. No path reads it. *)
Definition dg_uninit : digraph := dg_null.

Section Nng.
Context (cfg : config) (P : provider).

(** ** Nearest neighbour graphs *)

(** [for (; cnt times; ++write_tail_ptr) *write_tail_ptr = *(write_tail_ptr - 1)]
    (src/nng_core.c 766-769, 783-785). *)
Definition copy_prev (cnt wr : nat) (tail : option (arr nat)) : R (option (arr nat)) :=
  forR cnt wr tail (fun j t => let! x := aget t (j - 1) in aset t j x).

(** The loop over the successful queries (src/nng_core.c 763-773): [wr] is
    write_tail_ptr, [i] the next vertex. *)
Definition write_tails (num_ok k : nat) (ok_q : option (list (option nat))) (tail : option (arr nat))
    : R (option (arr nat) * nat) :=
  let! s := forR num_ok 0 (tail, 1, 0) (fun j '(t, wr, i) =>
    let! q := match ok_q with Some c => cget c j | None => Bad NullPtr end in
    let! t := copy_prev (q - i) wr t in
    let wr := wr + (q - i) in
    let i := i + (q - i) in
    let! x := aget t (wr - 1) in
    let! t := aset t wr (x + k) in
    Ok (t, wr + 1, i + 1)) in
  let '(t, wr, i) := s in Ok (t, wr).

(** iscc_make_nng_from_search_object (src/nng_core.c 694-806). [q] are the
    cells of query_indices, [outq] is out_query_indices, [rad] is the radius
    if radius_search. The product len_query_indices * k is a size_t. Result:
    error code, num_ok_queries (stored in *out_len_query_indices on success by
    the callers that pass it), out_query_indices, *out_nng. *)
Definition make_nng_from_search_object (o : p_nn P) (n lenq : nat) (q : option (list (option nat)))
    (k : nat) (rad : option double) (outq : option (arr nat))
    : M (ecode * nat * option (arr nat) * digraph) :=
  let* a :=
    (match rad with
     | None => Mret (Some (None, None))
     | Some _ =>
         match outq with
         | Some _ => Mret (Some (None, outq))
         | None =>
             let* i := malloc_arr nat lenq in
             match i with
             | None => Mret None
             | Some _ => Mret (Some (i, i))
             end
         end
     end) in
  match a with
  | None =>
      let* ec := make_error ER_NO_MEMORY src_nng 719 in Mret (ec, 0, outq, dg_uninit)
  | Some (internal, dist_out) =>
    let* r := init_digraph cfg n (wrapN u64max (lenq * k)) in
    let '(ec, nng) := r in
    if decide (ec <> ER_OK) then
      let* _ := free_arr internal in
      Mret (ec, 0, outq, nng)
    else
      let* s := nn_search P o lenq q k rad
                  (match rad with None => None | Some _ => Some dist_out end) (dg_head nng) in
      match s with
      | None =>
          let* _ := free_arr internal in
          let* nng := free_digraph nng in
          let* ec := make_error ER_DIST_SEARCH_ERROR src_nng 744 in
          Mret (ec, 0, outq, nng)
      | Some (num_ok, ob, head) =>
          let dist_out := match ob with Some b => b | None => dist_out end in
          let* tail := lift (
            let! t := aset (dg_tail nng) 0 0 in
            let! s :=
              (if decide (is_Some rad \/ is_Some q) then
                 write_tails num_ok k (match rad with Some _ => acells dist_out | None => q end) t
               else
                 let! t := forR lenq 1 t (fun j t =>
                   let! x := aget t (j - 1) in aset t j (x + k)) in
                 Ok (t, 1 + lenq)) in
            let '(t, wr) := s in
            copy_prev (n + 1 - wr) wr t) in
          let nng := DG (dg_n nng) (dg_max nng) head tail in
          (* the internal buffer is the one just written, same block *)
          let* _ := free_arr internal in
          let outq := match internal with
                      | Some _ => outq
                      | None => match rad with Some _ => dist_out | None => outq end
                      end in
          if decide (num_ok < lenq) then
            let* r := change_arc_storage cfg nng (wrapN u64max (num_ok * k)) in
            let '(ec, nng) := r in
            if decide (ec <> ER_OK) then
              let* nng := free_digraph nng in
              Mret (ec, 0, outq, nng)
            else Mret (ER_OK, num_ok, outq, nng)
          else Mret (ER_OK, num_ok, outq, nng)
      end
  end.

(** iscc_make_nng (src/nng_core.c 641-691). *)
Definition make_nng (ds : p_ds P) (n lens : nat) (s : option (list (option nat)))
    (lenq : nat) (q : option (list (option nat))) (k : nat) (rad : option double)
    (outq : option (arr nat)) : M (ecode * nat * option (arr nat) * digraph) :=
  let* so := nn_init P ds lens s in
  match so with
  | None =>
      let* ec := make_error ER_DIST_SEARCH_ERROR src_nng 667 in Mret (ec, 0, outq, dg_uninit)
  | Some o =>
    let* r := make_nng_from_search_object o n lenq q k rad outq in
    let '(ec, num_ok, outq, nng) := r in
    if decide (ec <> ER_OK) then
      let* _ := p_nn_close P o in
      Mret (ec, 0, outq, nng)
    else
      let* c := p_nn_close P o in
      if (c : bool) then Mret (ER_OK, num_ok, outq, nng)
      else
        let* nng := free_digraph nng in
        let* ec := make_error ER_DIST_SEARCH_ERROR src_nng 687 in
        Mret (ec, 0, outq, nng)
  end.

(** The body of the loops in iscc_ensure_self_match (src/nng_core.c 826-831 and
    837-842): if the arcs of [v] do not contain [v], the last becomes [v]. The C
    code looks at the first arc before entering its loop over the others. *)
Definition self_match_one (v : nat) (nng : digraph) : R digraph :=
  let! lo := aget (dg_tail nng) v in
  let! hi := aget (dg_tail nng) (v + 1) in
  if decide (lo = hi) then Ok nng else
  let! r := loop_ptr (T := unit) lo hi tt (fun j _ =>
    let! x := aget (dg_head nng) j in
    if decide (x = v) then Ok (inr tt) else Ok (inl tt)) in
  match r with
  | inr _ => Ok nng
  | inl _ =>
      let! h := aset (dg_head nng) (hi - 1) v in
      Ok (DG (dg_n nng) (dg_max nng) h (dg_tail nng))
  end.

(** iscc_ensure_self_match (src/nng_core.c 809-845). *)
Definition ensure_self_match (nng : digraph) (lens : nat) (s : option (list (option nat))) : R digraph :=
  match s with
  | None => forR lens 0 nng self_match_one
  | Some c => forR lens 0 nng (fun j nng => let! v := cget c j in self_match_one v nng)
  end.

(** iscc_sort_nng (src/nng_core.c 1054-1062). *)
Definition sort_nng (nng : digraph) : R digraph :=
  forR (dg_n nng) 0 nng (fun v nng =>
    let! lo := aget (dg_tail nng) v in
    let! hi := aget (dg_tail nng) (v + 1) in
    if decide (hi < lo) then Bad Oob else
    if decide (1 < hi - lo) then
      let! h := qsort_run (dg_head nng) lo (hi - lo) in
      Ok (DG (dg_n nng) (dg_max nng) h (dg_tail nng))
    else Ok nng).

(** The call in the two functions below (src/nng_core.c 177-179, 348-350). *)
Definition finish_nng (nng : digraph) : M digraph :=
  if stable_nng cfg then lift (sort_nng nng) else Mret nng.

(** iscc_get_nng_with_size_constraint (src/nng_core.c 125-182). *)
Definition get_nng_with_size_constraint (ds : p_ds P) (n size len_prim : nat) (prim : option (list nat))
    (rad : option double) : M (ecode * digraph) :=
  let num_queries := match prim with None => n | Some _ => len_prim end in
  let* r := make_nng ds n n None num_queries (ucells prim) size rad None in
  let '(ec, _, _, nng) := r in
  if decide (ec <> ER_OK) then Mret (ec, nng) else
  let* e := lift (digraph_is_empty nng) in
  if (e : bool) then
    let* nng := free_digraph nng in
    let* ec := make_error_msg ER_NO_SOLUTION "Infeasible radius constraint." src_nng 167 in
    Mret (ec, nng)
  else
    let* nng := lift (ensure_self_match nng n None) in
    let* r := delete_loops cfg nng in
    let '(ec, nng) := r in
    if decide (ec <> ER_OK) then
      let* nng := free_digraph nng in
      Mret (ec, nng)
    else
      let* nng := finish_nng nng in
      Mret (ER_OK, nng).

(** struct iscc_TypeCount (src/nng_core.c 42-47); the pointers in type_groups
    are offsets into point_store. *)
Record type_count := TC {
  tc_sum : nat;                        (* uint32_t *)
  tc_size : option (arr nat);          (* type_group_size *)
  tc_store : option (arr nat);         (* point_store *)
  tc_groups : option (arr nat)         (* type_groups *)
}.

Definition free_tc (tc : type_count) : M unit :=
  let* _ := free_arr (tc_size tc) in
  let* _ := free_arr (tc_store tc) in
  free_arr (tc_groups tc).

(** iscc_type_count (src/nng_core.c 848-912). Decrementing a pointer at the
    start of point_store is undefined ([Arith]). *)
Definition get_type_count (n size num_types : nat) (tcons tlabels : list nat) : M (ecode * type_count) :=
  let* gs := calloc_arr num_types 0 in
  let* ps := malloc_arr nat n in
  let* tg := malloc_arr nat num_types in
  let tc := TC 0 gs ps tg in
  match gs, ps, tg with
  | Some _, Some _, Some _ =>
      let* gs := lift (forR n 0 gs (fun i gs =>
        let! t := lget tlabels i in
        let! x := aget gs t in
        aset gs t (x + 1))) in
      let* r := lift (loopR (T := unit) num_types 0 0 (fun i sum =>
        let! x := aget gs i in
        let! c := lget tcons i in
        if decide (x < c) then Ok (inr tt) else Ok (inl (wrapN u32max (sum + c))))) in
      match r with
      | inr _ =>
          let* _ := free_tc (TC 0 gs ps tg) in
          let* ec := make_error_msg ER_NO_SOLUTION "Fewer data points than type size constraint." src_nng 887 in
          Mret (ec, tc)
      | inl sum =>
        if decide (size < sum) then
          let* _ := free_tc (TC 0 gs ps tg) in
          let* ec := make_error_msg ER_INVALID_INPUT
            "Type constraint cannot be larger than overall size constraint." src_nng 896 in
          Mret (ec, tc)
        else
          let* tg := lift (
            let! x := aget gs 0 in
            let! tg := aset tg 0 x in
            forR (num_types - 1) 1 tg (fun i tg =>
              let! p := aget tg (i - 1) in
              let! x := aget gs i in
              aset tg i (p + x))) in
          let* s := lift (forR n 0 (ps, tg) (fun i '(ps, tg) =>
            let! t := lget tlabels i in
            let! p := aget tg t in
            if decide (p = 0) then Bad Arith else
            let! tg := aset tg t (p - 1) in
            let! ps := aset ps (p - 1) i in
            Ok (ps, tg))) in
          let '(ps, tg) := s in
          Mret (ER_OK, TC sum gs ps tg)
      end
  | _, _, _ =>
      let* _ := free_tc tc in
      let* ec := make_error ER_NO_MEMORY src_nng 874 in
      Mret (ec, tc)
  end.

(** State of the loop over the types (src/nng_core.c 253-279): num_queries,
    seedable, nng_by_type, num_non_zero_type_constraints. *)
Notation type_state := (nat * option (arr nat) * option (arr digraph) * nat)%type.

(** Cells of seedable_const: it is seedable if there is a radius constraint,
    else primary_data_points (src/nng_core.c 216-232). *)
Definition seedable_cells (rad : option double) (prim : option (list nat)) (seedable : option (arr nat))
    : option (list (option nat)) :=
  match rad with Some _ => acells seedable | None => ucells prim end.

(** One iteration of that loop; [inr] leaves it with an error. *)
Definition type_step (ds : p_ds P) (n : nat) (tcons : list nat) (tc : type_count) (prim : option (list nat))
    (rad : option double) (i : nat) (s : type_state) : M (type_state + (ecode * type_state)) :=
  let '(nq, seedable, nbt, nz) := s in
  let* c := lift (lget tcons i) in
  if decide (0 < c) then
    let* gs := lift (aget (tc_size tc) i) in
    let* go := lift (aget (tc_groups tc) i) in
    let group := match tc_store tc with Some a => Some (drop go (a_cells a)) | None => None end in
    let* r := make_nng ds n gs group nq (seedable_cells rad prim seedable) c rad seedable in
    let '(ec, num_ok, seedable, nng) := r in
    if decide (ec <> ER_OK) then Mret (inr (ec, (nq, seedable, nbt, nz))) else
    let nq := num_ok in
    let* nbt := lift (aset nbt nz nng) in
    let nz := nz + 1 in
    let* e := lift (digraph_is_empty nng) in
    if (e : bool) then
      let* ec := make_error_msg ER_NO_SOLUTION "Infeasible radius constraint." src_nng 272 in
      Mret (inr (ec, (nq, seedable, nbt, nz)))
    else
      let* nng := lift (ensure_self_match nng gs group) in
      let* nbt := lift (aset nbt (nz - 1) nng) in
      Mret (inl (nq, seedable, nbt, nz))
  else Mret (inl s).

(** The first [nz] elements of nng_by_type, as read by
    iscc_digraph_union_and_delete. *)
Definition read_dgs (nbt : option (arr digraph)) (nz : nat) : R (list digraph) :=
  forR nz 0 [] (fun i acc => let! d := aget nbt i in Ok (acc ++ [d])).

(** iscc_free_digraph on each of the first [nz] elements (src/nng_core.c
    294-296). *)
Definition free_dgs (nbt : option (arr digraph)) (nz : nat) : M unit :=
  forM nz 0 tt (fun i _ =>
    let* d := lift (aget nbt i) in
    let* _ := free_digraph d in
    Mret tt).

(** src/nng_core.c 305-343: arcs for the general size constraint. [out] is
    *out_nng so far. *)
Definition add_general_nn (ds : p_ds P) (n size sum : nat) (prim : option (list nat)) (rad : option double)
    (nq : nat) (seedable : option (arr nat)) (out : digraph) : M (ecode * digraph) :=
  let* r := make_nng ds n n None nq (seedable_cells rad prim seedable) size rad seedable in
  let '(ec, num_ok, seedable, nng1) := r in
  if decide (ec <> ER_OK) then
    let* _ := free_arr seedable in
    let* out := free_digraph out in
    Mret (ec, out)
  else
    let nq := num_ok in
    let* e := lift (digraph_is_empty nng1) in
    let* r :=
      (if (e : bool) then
         let* ec := make_error_msg ER_NO_SOLUTION "Infeasible radius constraint." src_nng 328 in
         Mret (ec, nng1)
       else digraph_difference cfg nng1 out (size - sum)) in
    let '(ec, nng1) := r in
    let* r :=
      (if decide (ec = ER_OK) then
         let* ts := lift (read_idx nq (seedable_cells rad prim seedable)) in
         digraph_union_and_delete cfg [out; nng1] ts.2 false
       else Mret (ec, out)) in
    let '(ec, new) := r in
    let* _ := free_digraph out in
    let* _ := free_digraph nng1 in
    let* _ := free_arr seedable in
    if decide (ec <> ER_OK) then Mret (ec, dg_uninit) else Mret (ER_OK, new).

(** iscc_get_nng_with_type_constraint (src/nng_core.c 185-353). *)
Definition get_nng_with_type_constraint (ds : p_ds P) (n size num_types : nat) (tcons tlabels : list nat)
    (len_prim : nat) (prim : option (list nat)) (rad : option double) : M (ecode * digraph) :=
  let nq := match prim with None => n | Some _ => len_prim end in
  let* a :=
    (match rad with
     | None => Mret (Some None)
     | Some _ =>
         let* s := malloc_arr nat nq in
         match s with
         | None => Mret None
         | Some _ =>
             let* s := lift (forR nq 0 s (fun i s =>
               let! x := match prim with None => Ok i | Some p => lget p i end in
               aset s i x)) in
             Mret (Some s)
         end
     end) in
  match a with
  | None => let* ec := make_error ER_NO_MEMORY src_nng 220 in Mret (ec, dg_uninit)
  | Some seedable =>
    let* nbt := malloc_arr digraph num_types in
    match nbt with
    | None =>
        let* _ := free_arr seedable in
        let* ec := make_error ER_NO_MEMORY src_nng 237 in
        Mret (ec, dg_uninit)
    | Some _ =>
      let* r := get_type_count n size num_types tcons tlabels in
      let '(ec, tc) := r in
      if decide (ec <> ER_OK) then
        let* _ := free_arr seedable in
        let* _ := free_arr nbt in
        Mret (ec, dg_uninit)
      else
        let* r := loopM num_types 0 (nq, seedable, nbt, 0) (type_step ds n tcons tc prim rad) in
        let '(ec, (nq, seedable, nbt, nz)) :=
          match r with inl s => (ER_OK, s) | inr es => es end in
        let* _ := free_tc tc in
        let* r :=
          (if decide (ec = ER_OK) then
             let* ts := lift (read_idx nq (seedable_cells rad prim seedable)) in
             let* dgs := lift (read_dgs nbt nz) in
             digraph_union_and_delete cfg dgs ts.2 (bool_decide (tc_sum tc < size))
           else Mret (ec, dg_uninit)) in
        let '(ec, out) := r in
        let* _ := free_dgs nbt nz in
        let* _ := free_arr nbt in
        if decide (ec <> ER_OK) then
          let* _ := free_arr seedable in
          Mret (ec, out)
        else if decide (tc_sum tc < size) then
          let* r := add_general_nn ds n size (tc_sum tc) prim rad nq seedable out in
          let '(ec, out) := r in
          if decide (ec <> ER_OK) then Mret (ec, out) else
          let* out := finish_nng out in
          Mret (ER_OK, out)
        else
          let* _ := free_arr seedable in
          let* out := finish_nng out in
          Mret (ER_OK, out)
    end
  end.

(** ** Radius estimation *)

(** ISCC_ESTIMATE_AVG_MAX_SAMPLE (src/nng_core.c 50). *)
Definition max_sample : nat := 1000.

(** iscc_estimate_avg_seed_dist (src/nng_core.c 356-418). *)
Definition estimate_avg_seed_dist (ds : p_ds P) (sr : seed_result) (nng : digraph) (size : nat)
    : M (ecode * double) :=
  let count := sr_count sr in
  let step := if decide (max_sample < count) then count / max_sample else 1 in
  let* sc := malloc_arr double size in
  match sc with
  | None => let* ec := make_error ER_NO_MEMORY src_nng 377 in Mret (ec, d_zero)
  | Some _ =>
    (* the loop runs for s = 0, step, 2 * step, ... below count *)
    let* r := loopM (T := unit) ((count + step - 1) / step) 0 (0, d_zero, sc) (fun i '(sampled, sum, sc) =>
      let* seed := lift (aget (sr_seeds sr) (i * step)) in
      let* lo := lift (aget (dg_tail nng) seed) in
      let* hi := lift (aget (dg_tail nng) (seed + 1)) in
      let nn := hi - lo in
      let neighbors := match dg_head nng with Some a => Some (drop lo (a_cells a)) | None => None end in
      let* d := dist_rows P ds 1 (Some [Some seed]) nn neighbors sc in
      match d with
      | None => Mret (inr tt)
      | Some sc =>
          let* r := lift (forR nn 0 (d_zero, 0) (fun j '(tmp, m) =>
            let! x := aget (dg_head nng) (lo + j) in
            if decide (x <> seed) then
              let! dd := aget sc j in Ok (d_add tmp dd, m + 1)
            else Ok (tmp, m))) in
          let '(tmp, m) := r in
          Mret (inl (sampled + 1, d_add sum (d_div tmp (d_of_nat m)), sc))
      end) in
    let* _ := free_arr sc in
    match r with
    | inr _ => let* ec := make_error ER_DIST_SEARCH_ERROR src_nng 395 in Mret (ec, d_zero)
    | inl (sampled, sum, _) => Mret (ER_OK, d_div sum (d_of_nat sampled))
    end
  end.

(** ** Assignment *)

(** iscc_assign_seeds_and_neighbors (src/nng_core.c 915-955). *)
Definition assign_seeds_and_neighbors (cl : clustering) (sr : seed_result) (nng : digraph)
    : R (clustering * nat) :=
  let cl := set_k cl (sr_count sr) in
  let! lab := forR (c_n cl) 0 (c_label cl) (fun i lab => aset lab i (cl_na cfg)) in
  let! r := forR (sr_count sr) 0 (lab, 0) (fun i '(lab, num) =>
    let! seed := aget (sr_seeds sr) i in
    let! lab := for_arcs nng seed lab (fun x lab => aset lab x (Z.of_nat i)) in
    let! lo := aget (dg_tail nng) seed in
    let! hi := aget (dg_tail nng) (seed + 1) in
    let! l := aget lab seed in
    let num := num + (hi - lo) + (if decide (l = cl_na cfg) then 1 else 0) in
    let! lab := aset lab seed (Z.of_nat i) in
    Ok (lab, num)) in
  let '(lab, num) := r in
  Ok (set_label cl lab, num).

(** iscc_assign_by_nng (src/nng_core.c 958-991). If the allocation fails it
    returns the value of the error code as the number of assigned points. *)
Definition assign_by_nng (cl : clustering) (nng : digraph) : M (clustering * nat) :=
  let n := c_n cl in
  let* sc := malloc_arr bool n in
  match sc with
  | None => let* ec := make_error ER_NO_MEMORY src_nng 966 in Mret (cl, ecode_val ec)
  | Some _ =>
    let* sc := lift (forR n 0 sc (fun i sc =>
      let! l := aget (c_label cl) i in
      aset sc i (bool_decide (l = cl_na cfg)))) in
    let* r := lift (forR n 0 (c_label cl, 0) (fun i '(lab, num) =>
      let! u := aget sc i in
      if (u : bool) then
        let! r := loop_arcs (T := nat) nng i tt (fun x _ =>
          let! ux := aget sc x in
          if (ux : bool) then Ok (inl tt) else Ok (inr x)) in
        match r with
        | inl _ => Ok (lab, num)
        | inr x =>
            let! l := aget lab x in
            let! lab := aset lab i l in
            Ok (lab, num + 1)
        end
      else Ok (lab, num))) in
    let* _ := free_arr sc in
    Mret (set_label cl r.1, r.2)
  end.

(** iscc_assign_by_nn_search (src/nng_core.c 994-1041). Returns the error
    code, the clustering and to_assign. The result of malloc is not checked. *)
Definition assign_by_nn_search (cl : clustering) (o : p_nn P) (num : nat) (to_assign : option (arr nat))
    (rad : option double) : M (ecode * clustering * option (arr nat)) :=
  let* onn := malloc_arr nat num in
  let* s := nn_search P o num (acells to_assign) 1 rad
              (match rad with Some _ => Some to_assign | None => None end) onn in
  match s with
  | None =>
      let* _ := free_arr onn in
      let* ec := make_error ER_DIST_SEARCH_ERROR src_nng 1024 in
      Mret (ec, cl, to_assign)
  | Some (num_ok, ob, onn) =>
      let okq := match ob with Some b => b | None => to_assign end in
      let* lab := lift (forR num_ok 0 (c_label cl) (fun i lab =>
        let! q := aget okq i in
        let! x := aget onn i in
        let! l := aget lab x in
        aset lab q l)) in
      let* _ := free_arr onn in
      Mret (ER_OK, set_label cl lab, okq)
  end.

(** The loops that collect unassigned points (src/nng_core.c 554-565, 598-603):
    [len] candidates, [h i] is the i-th. *)
Definition collect_unassigned (lab : option (arr Z)) (len : nat) (h : nat -> R nat) (ta : option (arr nat))
    : R (option (arr nat) * nat) :=
  forR len 0 (ta, 0) (fun i '(ta, num) =>
    let! p := h i in
    let! ta := aset ta num p in
    let! l := aget lab p in
    Ok (ta, num + (if decide (l = cl_na cfg) then 1 else 0))).

(** iscc_close_nn_search_object if the pointer is not NULL. *)
Definition close_opt (o : option (p_nn P)) : M unit :=
  match o with
  | None => Mret tt
  | Some o => let* _ := p_nn_close P o in Mret tt
  end.

(** Stage of an assignment by search: nothing unless the method is one of the
    two search methods. *)
Definition assign_stage (cl : clustering) (um : unassigned_method) (oa os : option (p_nn P))
    (num : nat) (ta : option (arr nat)) (rad : option double)
    : M (ecode * clustering * option (arr nat)) :=
  if decide (0 < num) then
    match um with
    | UM_CLOSEST_ASSIGNED =>
        match oa with Some o => assign_by_nn_search cl o num ta rad | None => Mbad NullPtr end
    | UM_CLOSEST_SEED =>
        match os with Some o => assign_by_nn_search cl o num ta rad | None => Mbad NullPtr end
    | _ => Mret (ER_OK, cl, ta)
    end
  else Mret (ER_OK, cl, ta).

Definition uses (m um1 um2 : unassigned_method) : bool := bool_decide (um1 = m \/ um2 = m).

(** iscc_make_nng_clusters_from_seeds, from the allocation of to_assign on
    (src/nng_core.c 541-634). The result of the secondary stage is dropped. *)
Definition assign_rest (cl : clustering) (total : nat) (um1 : unassigned_method) (rad1 : option double)
    (len_prim : nat) (prim : option (list nat)) (um2 : unassigned_method) (rad2 : option double)
    (sn : option (arr nat)) (oa os : option (p_nn P)) : M (ecode * clustering) :=
  let n := c_n cl in
  (* clustering->num_data_points - total_assigned + 1 in size_t *)
  if decide (n + 1 < total) then Mbad Arith else
  let* ta := malloc_arr nat (n + 1 - total) in
  match ta with
  | None =>
      let* _ := free_arr sn in
      let* _ := close_opt oa in
      let* _ := close_opt os in
      let* ec := make_error ER_NO_MEMORY src_nng 551 in
      Mret (ec, cl)
  | Some _ =>
    let* r := lift (match prim with
                    | Some p => collect_unassigned (c_label cl) len_prim (lget p) ta
                    | None => collect_unassigned (c_label cl) n (fun i => Ok i) ta
                    end) in
    let '(ta, num) := r in
    let* r := assign_stage cl um1 oa os num ta rad1 in
    let '(ec, cl, ta) := r in
    if decide (ec <> ER_OK) then
      let* _ := free_arr sn in
      let* _ := free_arr ta in
      let* _ := close_opt oa in
      let* _ := close_opt os in
      Mret (ec, cl)
    else
      let* r :=
        (if decide (um2 <> UM_IGNORE) then
           let* r := lift (collect_unassigned (c_label cl) n (fun i => Ok i) ta) in
           let '(ta, num) := r in
           let* r := assign_stage cl um2 oa os num ta rad2 in
           let '(ec, cl, ta) := r in
           Mret (cl, ta)
         else Mret (cl, ta)) in
      let '(cl, ta) := r in
      let* _ := free_arr sn in
      let* _ := free_arr ta in
      let* _ := close_opt oa in
      let* _ := close_opt os in
      Mret (ER_OK, cl)
  end.

(** src/nng_core.c 503-539: the search objects. [nas] is
    num_assigned_as_seed_or_neighbor. *)
Definition assign_search (ds : p_ds P) (cl : clustering) (sr : seed_result) (nas total : nat)
    (um1 : unassigned_method) (rad1 : option double) (len_prim : nat) (prim : option (list nat))
    (um2 : unassigned_method) (rad2 : option double) (sn : option (arr nat)) : M (ecode * clustering) :=
  let* r :=
    (if uses UM_CLOSEST_ASSIGNED um1 um2 then
       let* o := nn_init P ds nas (acells sn) in
       match o with
       | None => let* ec := make_error ER_DIST_SEARCH_ERROR src_nng 514 in Mret (ec, None)
       | Some o => Mret (ER_OK, Some o)
       end
     else Mret (ER_OK, None)) in
  let '(ec, oa) := r in
  if decide (ec <> ER_OK) then
    let* _ := free_arr sn in Mret (ec, cl)
  else
  let* r :=
    (if uses UM_CLOSEST_SEED um1 um2 then
       let* o := nn_init P ds (sr_count sr) (acells (sr_seeds sr)) in
       match o with
       | None => let* ec := make_error ER_DIST_SEARCH_ERROR src_nng 529 in Mret (ec, None)
       | Some o => Mret (ER_OK, Some o)
       end
     else Mret (ER_OK, None)) in
  let '(ec, os) := r in
  if decide (ec <> ER_OK) then
    let* _ := free_arr sn in
    let* _ := close_opt oa in
    Mret (ec, cl)
  else assign_rest cl total um1 rad1 len_prim prim um2 rad2 sn oa os.

(** "Are we done?" (src/nng_core.c 457-460, 493-497). *)
Definition is_done (n total : nat) (um1 um2 : unassigned_method) : bool :=
  bool_decide (total = n \/ (um1 = UM_IGNORE /\ um2 = UM_IGNORE)).

(** iscc_make_nng_clusters_from_seeds (src/nng_core.c 421-634). [rad1] and
    [rad2] are the radii if the corresponding radius constraint is on. *)
Definition make_nng_clusters_from_seeds (cl : clustering) (ds : p_ds P) (sr : seed_result) (nng : digraph)
    (ordered : bool) (um1 : unassigned_method) (rad1 : option double)
    (len_prim : nat) (prim : option (list nat)) (um2 : unassigned_method) (rad2 : option double)
    : M (ecode * clustering * digraph) :=
  let* r := lift (assign_seeds_and_neighbors cl sr nng) in
  let '(cl, nas) := r in
  let n := c_n cl in
  if is_done n nas um1 um2 then Mret (ER_OK, cl, nng) else
  let* a :=
    (if uses UM_CLOSEST_ASSIGNED um1 um2 then
       let* sn := malloc_arr nat nas in
       match sn with
       | None => Mret None
       | Some _ =>
           let* r := lift (forR n 0 (sn, 0) (fun i '(sn, wr) =>
             let! l := aget (c_label cl) i in
             if decide (l <> cl_na cfg) then
               let! sn := aset sn wr i in Ok (sn, wr + 1)
             else Ok (sn, wr))) in
           Mret (Some r.1)
       end
     else Mret (Some None)) in
  match a with
  | None => let* ec := make_error ER_NO_MEMORY src_nng 467 in Mret (ec, cl, nng)
  | Some sn =>
    let* r :=
      (if decide (um1 = UM_ANY_NEIGHBOR \/ (ordered = true /\ um1 = UM_CLOSEST_ASSIGNED)) then
         let* r := assign_by_nng cl nng in
         let '(cl, num) := r in
         Mret (cl, nas + num, if decide (um1 = UM_ANY_NEIGHBOR) then UM_IGNORE else um1, true)
       else Mret (cl, nas, um1, false)) in
    let '(cl, total, um1, by_nng) := r in
    if (by_nng && is_done n total um1 um2)%bool then
      let* _ := free_arr sn in
      Mret (ER_OK, cl, nng)
    else
      let* nng := free_digraph nng in
      let* r := assign_search ds cl sr nas total um1 rad1 len_prim prim um2 rad2 sn in
      let '(ec, cl) := r in
      Mret (ec, cl, nng)
  end.

End Nng.
