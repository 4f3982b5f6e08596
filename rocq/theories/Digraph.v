(** Model of src/digraph_core.c and src/digraph_operations.c. *)

From Coq Require Import Strings.String.
From stdpp Require Import prelude list.
From Coq Require Import NArith ZArith.
From Verif Require Import Base World.
Open Scope string_scope. Open Scope list_scope. Open Scope nat_scope.

(** struct iscc_Digraph (src/digraph_core.h 53-80): vertices, max_arcs, head,
    tail_ptr. [None] is the NULL pointer. *)
Record digraph := DG {
  dg_n : nat;
  dg_max : nat;
  dg_head : option (arr nat);
  dg_tail : option (arr nat)
}.

(** ISCC_NULL_DIGRAPH (src/digraph_core.h 87). *)
Definition dg_null : digraph := DG 0 0 None None.

(** Row markers: [Some v] is the value v, [None] is ISCC_POINTINDEX_MAX_PI,
    which no vertex equals because vertices <= ISCC_POINTINDEX_MAX. *)
Notation markers := (list (option (option nat))).

Section Digraph.
Context (cfg : config).

(** iscc_free_digraph (src/digraph_core.c 37-44). *)
Definition free_digraph (dg : digraph) : M digraph :=
  let* _ := free_arr (dg_head dg) in
  let* _ := free_arr (dg_tail dg) in
  Mret dg_null.

(** iscc_digraph_is_initialized (src/digraph_core.c 47-54). *)
Definition digraph_is_initialized (dg : digraph) : bool :=
  match dg_tail dg with
  | None => false
  | Some _ =>
      if ((pi_max cfg <? N.of_nat (dg_n dg)) || (ai_max cfg <? N.of_nat (dg_max dg)))%N then false
      else match dg_head dg with
           | Some _ => if decide (dg_max dg = 0) then false else true
           | None => if decide (dg_max dg = 0) then true else false
           end
  end.

(** iscc_digraph_is_valid (src/digraph_core.c 57-74). *)
Definition digraph_is_valid (dg : digraph) : R bool :=
  if negb (digraph_is_initialized dg) then Ok false else
  let! t0 := aget (dg_tail dg) 0 in
  if decide (t0 <> 0) then Ok false else
  let! tn := aget (dg_tail dg) (dg_n dg) in
  if decide (dg_max dg < tn) then Ok false else
  let! r := loopR (T := bool) (dg_n dg) 0 tt (fun i _ =>
    let! a := aget (dg_tail dg) i in
    let! b := aget (dg_tail dg) (i + 1) in
    if decide (b < a) then Ok (inr false) else Ok (inl tt)) in
  match r with
  | inr b => Ok b
  | inl _ =>
      if decide (0 < tn) then
        let! r := loop_ptr (T := bool) 0 tn tt (fun j _ =>
          let! x := aget (dg_head dg) j in
          if decide (dg_n dg <= x) then Ok (inr false) else Ok (inl tt)) in
        match r with inr b => Ok b | inl _ => Ok true end
      else Ok true
  end.

(** iscc_digraph_is_empty (src/digraph_core.c 77-81). *)
Definition digraph_is_empty (dg : digraph) : R bool :=
  let! t := aget (dg_tail dg) (dg_n dg) in
  Ok (bool_decide (t = 0)).

(** The test [(max_arcs > ISCC_ARCINDEX_MAX) || (max_arcs > SIZE_MAX)]
    (src/digraph_core.c 92, 126, 157); SIZE_MAX = 2^64-1. *)
Definition too_many_arcs (a : nat) : bool :=
  ((ai_max cfg <? N.of_nat a) || (u64max <? N.of_nat a))%N.

(** iscc_init_digraph (src/digraph_core.c 84-115). On error the content of
    [*out_dg] is never looked at by any caller; the model returns the null
    digraph then. *)
Definition init_digraph (vertices max_arcs : nat) : M (ecode * digraph) :=
  if too_many_arcs max_arcs then
    let* ec := make_error_msg ER_TOO_LARGE_PROBLEM
      "Too many arcs in graph (adjust the `iscc_ArcIndex` type)." "src/digraph_core.c" 93 in
    Mret (ec, dg_null)
  else
    let* tail := malloc_arr nat (vertices + 1) in
    match tail with
    | None =>
        let* ec := make_error ER_NO_MEMORY "src/digraph_core.c" 102 in
        Mret (ec, DG vertices max_arcs None None)
    | Some _ =>
        if decide (0 < max_arcs) then
          let* head := malloc_arr nat max_arcs in
          match head with
          | None =>
              let* dg := free_digraph (DG vertices max_arcs None tail) in
              let* ec := make_error ER_NO_MEMORY "src/digraph_core.c" 108 in
              Mret (ec, dg)
          | Some _ => Mret (ER_OK, DG vertices max_arcs head tail)
          end
        else Mret (ER_OK, DG vertices max_arcs None tail)
    end.

(** iscc_empty_digraph (src/digraph_core.c 118-149). *)
Definition empty_digraph (vertices max_arcs : nat) : M (ecode * digraph) :=
  if too_many_arcs max_arcs then
    let* ec := make_error_msg ER_TOO_LARGE_PROBLEM
      "Too many arcs in graph (adjust the `iscc_ArcIndex` type)." "src/digraph_core.c" 127 in
    Mret (ec, dg_null)
  else
    let* tail := calloc_arr (vertices + 1) 0 in
    match tail with
    | None =>
        let* ec := make_error ER_NO_MEMORY "src/digraph_core.c" 136 in
        Mret (ec, DG vertices max_arcs None None)
    | Some _ =>
        if decide (0 < max_arcs) then
          let* head := malloc_arr nat max_arcs in
          match head with
          | None =>
              let* dg := free_digraph (DG vertices max_arcs None tail) in
              let* ec := make_error ER_NO_MEMORY "src/digraph_core.c" 142 in
              Mret (ec, dg)
          | Some _ => Mret (ER_OK, DG vertices max_arcs head tail)
          end
        else Mret (ER_OK, DG vertices max_arcs None tail)
    end.

(** iscc_change_arc_storage (src/digraph_core.c 152-174). *)
Definition change_arc_storage (dg : digraph) (new_max : nat) : M (ecode * digraph) :=
  if too_many_arcs new_max then
    let* ec := make_error_msg ER_TOO_LARGE_PROBLEM
      "Too many arcs in graph (adjust the `iscc_ArcIndex` type)." "src/digraph_core.c" 158 in
    Mret (ec, dg)
  else if decide (dg_max dg = new_max) then Mret (ER_OK, dg)
  else if decide (new_max = 0) then
    let* _ := free_arr (dg_head dg) in
    Mret (ER_OK, DG (dg_n dg) 0 None (dg_tail dg))
  else
    let* tmp := realloc_arr (dg_head dg) new_max in
    match tmp with
    | None =>
        let* ec := make_error ER_NO_MEMORY "src/digraph_core.c" 168 in
        Mret (ec, dg)
    | Some _ => Mret (ER_OK, DG (dg_n dg) new_max tmp (dg_tail dg))
    end.

(** The loop header
    [for (arc = head + tail_ptr[v]; arc != head + tail_ptr[v+1]; ++arc)]
    used throughout the library. *)
Definition for_arcs {S} (dg : digraph) (v : nat) (s : S) (f : nat -> S -> R S) : R S :=
  let! lo := aget (dg_tail dg) v in
  let! hi := aget (dg_tail dg) (v + 1) in
  for_ptr lo hi s (fun j s => let! x := aget (dg_head dg) j in f x s).

(** The same header for loops that may be left early. *)
Definition loop_arcs {S T} (dg : digraph) (v : nat) (s : S) (f : nat -> S -> R (S + T)) : R (S + T) :=
  let! lo := aget (dg_tail dg) v in
  let! hi := aget (dg_tail dg) (v + 1) in
  loop_ptr lo hi s (fun j s => let! x := aget (dg_head dg) j in f x s).

(** iscc_delete_loops (src/digraph_operations.c 61-86). [hw] is head_write, of
    type iscc_ArcIndex. *)
Definition delete_loops (dg : digraph) : M (ecode * digraph) :=
  let* e := lift (digraph_is_empty dg) in
  if e then Mret (ER_OK, dg) else
  let* r := lift (
    let! s := forR (dg_n dg) 0 (dg_head dg, dg_tail dg, 0) (fun v '(head, tail, hw) =>
      let! lo := aget tail v in
      let! hi := aget tail (v + 1) in
      let! tail := aset tail v hw in
      let! s := for_ptr lo hi (head, hw) (fun j '(head, hw) =>
        let! x := aget head j in
        if decide (x <> v) then
          let! head := aset head hw x in
          Ok (head, wrapN (ai_max cfg) (hw + 1))
        else Ok (head, hw)) in
      let '(head, hw) := s in
      Ok (head, tail, hw)) in
    let '(head, tail, hw) := s in
    let! tail := aset tail (dg_n dg) hw in
    Ok (head, tail, hw)) in
  let '(head, tail, hw) := r in
  change_arc_storage (DG (dg_n dg) (dg_max dg) head tail) hw.

(** [for v < n: row_markers[v] = ISCC_POINTINDEX_MAX_PI]
    (src/digraph_operations.c 168-170, 332-334, 440-442). *)
Definition reset_markers (n : nat) (mk : markers) : R markers :=
  forR n 0 mk (fun v mk => cset mk v None).

(** Loop body [if (row_markers[x] != v) { row_markers[x] = v; ++counter; }]
    (src/digraph_operations.c 343-346, 358-361, 452-455, 465-468). *)
Definition mark_count (v x : nat) (s : markers * nat) : R (markers * nat) :=
  let '(mk, counter) := s in
  let! m := cget mk x in
  if decide (m <> Some v) then
    let! mk := cset mk x (Some v) in
    Ok (mk, counter + 1)
  else Ok (mk, counter).

(** Loop body with the additional write [out_head[counter] = x]
    (src/digraph_operations.c 375-379, 399-403, 482-486, 496-500). *)
Definition mark_write (v x : nat) (s : markers * nat * option (arr nat))
    : R (markers * nat * option (arr nat)) :=
  let '(mk, counter, out) := s in
  let! m := cget mk x in
  if decide (m <> Some v) then
    let! mk := cset mk x (Some v) in
    let! out := aset out counter x in
    Ok (mk, counter + 1, out)
  else Ok (mk, counter, out).

(** iscc_do_union_and_delete (src/digraph_operations.c 303-411), the two
    branches without writing (336-365). *)
Definition do_union_count (dgs : list digraph) (mk : markers)
    (tails : option (list nat)) (keep_self_loops : bool) : R (markers * nat) :=
  let! dg0 := lget dgs 0 in
  let! mk := reset_markers (dg_n dg0) mk in
  let row v (s : markers * nat) :=
    let '(mk, counter) := s in
    let! mk := if keep_self_loops then Ok mk else cset mk v (Some v) in
    foldR (fun dg s => for_arcs dg v s (mark_count v)) (mk, counter) dgs in
  match tails with
  | None => forR (dg_n dg0) 0 (mk, 0) (fun v s => row v s)
  | Some ts => foldR (fun v s => row v s) (mk, 0) ts
  end.

(** iscc_do_union_and_delete, the two branches with writing (366-408).
    [next] is the part of tails_to_keep from next_tail_to_keep on. *)
Definition do_union_write (dgs : list digraph) (mk : markers)
    (tails : option (list nat)) (keep_self_loops : bool)
    (out_tail out_head : option (arr nat))
    : R (nat * option (arr nat) * option (arr nat)) :=
  let! dg0 := lget dgs 0 in
  let! mk := reset_markers (dg_n dg0) mk in
  let! out_tail := aset out_tail 0 0 in
  let row v (s : markers * nat * option (arr nat)) :=
    let '(mk, counter, oh) := s in
    let! mk := if keep_self_loops then Ok mk else cset mk v (Some v) in
    foldR (fun dg s => for_arcs dg v s (mark_write v)) (mk, counter, oh) dgs in
  match tails with
  | None =>
      let! s := forR (dg_n dg0) 0 (mk, 0, out_head, out_tail) (fun v '(mk, counter, oh, ot) =>
        let! s := row v (mk, counter, oh) in
        let '(mk, counter, oh) := s in
        let! ot := aset ot (v + 1) (wrapN (ai_max cfg) counter) in
        Ok (mk, counter, oh, ot)) in
      let '(_, counter, oh, ot) := s in Ok (counter, ot, oh)
  | Some ts =>
      let! s := forR (dg_n dg0) 0 (mk, 0, out_head, out_tail, ts) (fun v '(mk, counter, oh, ot, next) =>
        match next with
        | t :: next' =>
            if decide (t = v) then
              let! s := row v (mk, counter, oh) in
              let '(mk, counter, oh) := s in
              let! ot := aset ot (v + 1) (wrapN (ai_max cfg) counter) in
              Ok (mk, counter, oh, ot, next')
            else
              let! ot := aset ot (v + 1) (wrapN (ai_max cfg) counter) in
              Ok (mk, counter, oh, ot, next)
        | [] =>
            let! ot := aset ot (v + 1) (wrapN (ai_max cfg) counter) in
            Ok (mk, counter, oh, ot, next)
        end) in
      let '(_, counter, oh, ot, _) := s in Ok (counter, ot, oh)
  end.

(** iscc_digraph_union_and_delete (src/digraph_operations.c 89-144). The array
    [in_dgs] is a list; reading element 0 of an empty one is a read of an
    uninitialised struct in every caller, modelled as [Bad Uninit].
    [tails] holds the first len_tails_to_keep elements of tails_to_keep. *)
Definition digraph_union_and_delete (in_dgs : list digraph)
    (tails : option (list nat)) (keep_self_loops : bool) : M (ecode * digraph) :=
  match in_dgs with
  | [] => Mbad Uninit
  | dg0 :: _ =>
    let vertices := dg_n dg0 in
    let* greedy := lift (foldR (fun dg acc =>
      let! t := aget (dg_tail dg) vertices in Ok (acc + t)) 0 in_dgs) in
    let* rm := malloc_arr (option nat) vertices in
    match rm with
    | None =>
        let* ec := make_error ER_NO_MEMORY "src/digraph_operations.c" 113 in
        Mret (ec, dg_null)
    | Some rma =>
        let* r := init_digraph vertices greedy in
        let* r :=
          (if decide (r.1 <> ER_OK) then
             let* _ := reset_error in
             let* c := lift (do_union_count in_dgs (a_cells rma) tails keep_self_loops) in
             let* r := init_digraph vertices c.2 in
             Mret (r, c.1)
           else Mret (r, a_cells rma)) in
        let '(ec, out_dg, mk) := r in
        if decide (ec <> ER_OK) then
          let* _ := free_arr rm in
          Mret (ec, out_dg)
        else
          let* w := lift (do_union_write in_dgs mk tails keep_self_loops
                            (dg_tail out_dg) (dg_head out_dg)) in
          let '(counter, ot, oh) := w in
          let* _ := free_arr rm in
          let* r := change_arc_storage (DG (dg_n out_dg) (dg_max out_dg) oh ot) counter in
          let '(ec, out_dg) := r in
          if decide (ec <> ER_OK) then
            let* dg := free_digraph out_dg in
            Mret (ec, dg)
          else Mret (ER_OK, out_dg)
    end
  end.

(** iscc_digraph_difference (src/digraph_operations.c 147-196). *)
Definition digraph_difference (minuend subtrahend : digraph) (max_out_degree : nat)
    : M (ecode * digraph) :=
  let* e := lift (digraph_is_empty minuend) in
  if e then Mret (ER_OK, minuend) else
  let* rm := malloc_arr (option nat) (dg_n minuend) in
  match rm with
  | None =>
      let* ec := make_error ER_NO_MEMORY "src/digraph_operations.c" 162 in
      Mret (ec, minuend)
  | Some rma =>
      let* r := lift (
        let! mk := reset_markers (dg_n minuend) (a_cells rma) in
        let! s := forR (dg_n minuend) 0 (mk, dg_head minuend, dg_tail minuend, 0)
          (fun v '(mk, head, tail, aw) =>
          let! mk := for_arcs subtrahend v mk (fun x mk => cset mk x (Some v)) in
          let! lo := aget tail v in
          let! hi := aget tail (v + 1) in
          let! tail := aset tail v aw in
          if decide (hi < lo) then Bad Oob else
          let! r := loopR (hi - lo) lo (0, head, aw) (fun j '(rc, head, aw) =>
            if decide (rc < max_out_degree) then
              let! x := aget head j in
              let! m := cget mk x in
              if decide (m <> Some v) then
                let! head := aset head aw x in
                Ok (inl (rc + 1, head, wrapN (ai_max cfg) (aw + 1)))
              else Ok (inl (rc, head, aw))
            else Ok (inr (rc, head, aw))) in
          let '(_, head, aw) := match r with inl s => s | inr s => s end in
          Ok (mk, head, tail, aw)) in
        let '(_, head, tail, aw) := s in
        let! tail := aset tail (dg_n minuend) aw in
        Ok (head, tail, aw)) in
      let '(head, tail, aw) := r in
      let* _ := free_arr rm in
      change_arc_storage (DG (dg_n minuend) (dg_max minuend) head tail) aw
  end.

(** iscc_digraph_transpose (src/digraph_operations.c 199-237). *)
Definition digraph_transpose (in_dg : digraph) : M (ecode * digraph) :=
  let* t := lift (aget (dg_tail in_dg) (dg_n in_dg)) in
  let* r := empty_digraph (dg_n in_dg) t in
  let '(ec, out) := r in
  if decide (ec <> ER_OK) then Mret (ec, out) else
  let* e := lift (digraph_is_empty in_dg) in
  if e then Mret (ER_OK, out) else
  let* r := lift (
    let! ot := for_ptr 0 t (dg_tail out) (fun j ot =>
      let! x := aget (dg_head in_dg) j in
      let! c := aget ot x in
      aset ot x (wrapN (ai_max cfg) (c + 1))) in
    let! ot := forR (dg_n in_dg) 0 ot (fun v ot =>
      let! a := aget ot v in
      let! b := aget ot (v + 1) in
      aset ot (v + 1) (wrapN (ai_max cfg) (b + a))) in
    forR (dg_n in_dg) 0 (ot, dg_head out) (fun v s =>
      for_arcs in_dg v s (fun x '(ot, oh) =>
        let! c := aget ot x in
        if decide (c = 0) then Bad Arith else
        let! ot := aset ot x (c - 1) in
        let! oh := aset oh (c - 1) v in
        Ok (ot, oh)))) in
  let '(ot, oh) := r in
  Mret (ER_OK, DG (dg_n out) (dg_max out) oh ot).

(** iscc_do_adjacency_product (src/digraph_operations.c 414-506), without
    writing (444-471). *)
Definition do_product_count (dg_a dg_b : digraph) (mk : markers) (force_loops : bool)
    : R (markers * nat) :=
  let! mk := reset_markers (dg_n dg_a) mk in
  forR (dg_n dg_a) 0 (mk, 0) (fun v '(mk, counter) =>
    let! mk := cset mk v (Some v) in
    let! s := (if force_loops then for_arcs dg_b v (mk, counter) (mark_count v)
               else Ok (mk, counter)) in
    for_arcs dg_a v s (fun u s => for_arcs dg_b u s (mark_count v))).

(** iscc_do_adjacency_product, with writing (473-503). *)
Definition do_product_write (dg_a dg_b : digraph) (mk : markers) (force_loops : bool)
    (out_tail out_head : option (arr nat))
    : R (nat * option (arr nat) * option (arr nat)) :=
  let! mk := reset_markers (dg_n dg_a) mk in
  let! out_tail := aset out_tail 0 0 in
  let! s := forR (dg_n dg_a) 0 (mk, 0, out_head, out_tail) (fun v '(mk, counter, oh, ot) =>
    let! mk := cset mk v (Some v) in
    let! s := (if force_loops then for_arcs dg_b v (mk, counter, oh) (mark_write v)
               else Ok (mk, counter, oh)) in
    let! s := for_arcs dg_a v s (fun u s => for_arcs dg_b u s (mark_write v)) in
    let '(mk, counter, oh) := s in
    let! ot := aset ot (v + 1) (wrapN (ai_max cfg) counter) in
    Ok (mk, counter, oh, ot)) in
  let '(_, counter, oh, ot) := s in Ok (counter, ot, oh).

(** iscc_adjacency_product (src/digraph_operations.c 240-296). *)
Definition adjacency_product (dg_a dg_b : digraph) (force_loops : bool) : M (ecode * digraph) :=
  let vertices := dg_n dg_a in
  let* rm := malloc_arr (option nat) vertices in
  match rm with
  | None =>
      let* ec := make_error ER_NO_MEMORY "src/digraph_operations.c" 256 in
      Mret (ec, dg_null)
  | Some rma =>
      let* greedy := lift (
        let! ta := aget (dg_tail dg_a) vertices in
        let! g := for_ptr 0 ta 0 (fun j acc =>
          let! x := aget (dg_head dg_a) j in
          let! hi := aget (dg_tail dg_b) (x + 1) in
          let! lo := aget (dg_tail dg_b) x in
          Ok (acc + (hi - lo))) in
        if force_loops then let! tb := aget (dg_tail dg_b) vertices in Ok (g + tb)
        else Ok g) in
      let* r := init_digraph vertices greedy in
      let* r :=
        (if decide (r.1 <> ER_OK) then
           let* _ := reset_error in
           let* c := lift (do_product_count dg_a dg_b (a_cells rma) force_loops) in
           let* r := init_digraph vertices c.2 in
           Mret (r, c.1)
         else Mret (r, a_cells rma)) in
      let '(ec, out_dg, mk) := r in
      if decide (ec <> ER_OK) then
        let* _ := free_arr rm in
        Mret (ec, out_dg)
      else
        let* w := lift (do_product_write dg_a dg_b mk force_loops
                          (dg_tail out_dg) (dg_head out_dg)) in
        let '(counter, ot, oh) := w in
        let* _ := free_arr rm in
        let* r := change_arc_storage (DG (dg_n out_dg) (dg_max out_dg) oh ot) counter in
        let '(ec, out_dg) := r in
        if decide (ec <> ER_OK) then
          let* dg := free_digraph out_dg in
          Mret (ec, dg)
        else Mret (ER_OK, out_dg)
  end.

End Digraph.
