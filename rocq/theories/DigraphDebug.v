(** Model of src/digraph_debug.c. *)

From Coq Require Import Strings.Ascii Strings.String.
From stdpp Require Import prelude list.
From Coq Require Import NArith ZArith.
From Verif Require Import Base World Digraph.
Open Scope string_scope. Open Scope list_scope. Open Scope nat_scope.

(** Characters. *)
Notation c_hash := "#"%char.
Notation c_dot := "."%char.
Notation c_slash := "/"%char.
Notation c_newline := "010"%char.

Global Instance ascii_eq_dec : EqDecision ascii := Ascii.ascii_dec.

(** memcpy of [k] elements; indeterminate elements may be copied. *)
Definition acopy {A} (dst src : option (arr A)) (k : nat) : R (option (arr A)) :=
  match dst, src with
  | Some d, Some s =>
      if decide (k <= length (a_cells d) /\ k <= length (a_cells s))
      then Ok (Some (Arr (a_blk d) (take k (a_cells s) ++ drop k (a_cells d))))
      else Bad Oob
  | _, _ => Bad NullPtr
  end.

Section Debug.
Context (cfg : config).

(** iscc_is_balanced_digraph (src/digraph_debug.c 39-49). The product is computed
    in size_t or iscc_ArcIndex, whichever is wider: 64 bits. *)
Definition is_balanced_digraph (dg : digraph) (arcs_per_vertex : nat) : R bool :=
  let! v := digraph_is_valid cfg dg in
  if negb v then Ok false else
  let! r := loopR (T := unit) (S (dg_n dg)) 0 tt (fun i _ =>
    let! t := aget (dg_tail dg) i in
    if decide (t <> wrapN u64max (i * arcs_per_vertex)) then Ok (inr tt) else Ok (inl tt)) in
  Ok (match r with inl _ => true | inr _ => false end).

(** iscc_digraphs_equal (src/digraph_debug.c 52-91). *)
Definition digraphs_equal (a b : digraph) : M bool :=
  if decide (dg_n a <> dg_n b) then Mret false else
  let* both_empty := lift (
    let! ta := aget (dg_tail a) (dg_n a) in
    if decide (ta = 0) then let! tb := aget (dg_tail b) (dg_n b) in Ok (bool_decide (tb = 0))
    else Ok false) in
  if both_empty : bool then Mret true else
  let* single_row := calloc_arr (dg_n a) 0 in
  let* r := lift (loopR (T := unit) (dg_n a) 0 single_row (fun v row =>
    let! row := for_arcs a v row (fun x row => aset row x 1) in
    let! r := loop_arcs (T := unit) b v row (fun x row =>
      let! m := aget row x in
      if decide (m = 0) then Ok (inr tt) else
      let! row := aset row x 2 in Ok (inl row)) in
    match r with
    | inr _ => Ok (inr tt)
    | inl row =>
        loopR (dg_n a) 0 row (fun i row =>
          let! m := aget row i in
          if decide (m = 1) then Ok (inr tt) else
          let! row := aset row i 0 in Ok (inl row))
    end)) in
  let* _ := free_arr single_row in
  Mret (match r with inl _ => true | inr _ => false end).

(** iscc_digraph_from_pieces (src/digraph_debug.c 94-116). *)
Definition digraph_from_pieces (vertices max_arcs : nat) (tail_ptr head : option (arr nat)) : M (ecode * digraph) :=
  let* r := init_digraph cfg vertices max_arcs in
  let '(ec, dg) := r in
  if decide (ec <> ER_OK) then Mret (ec, dg) else
  let* t := lift (acopy (dg_tail dg) tail_ptr (vertices + 1)) in
  let* h := lift (acopy (dg_head dg) head max_arcs) in
  Mret (ER_OK, DG (dg_n dg) (dg_max dg) h t).

(** The counting loop of iscc_digraph_from_string (src/digraph_debug.c 129-136),
    state (vertices, all_arcs, max_arcs); leaving it is the error return. *)
Definition count_string (c : ascii) (s : nat * nat * nat) : R (nat * nat * nat + unit) :=
  let '(vertices, all_arcs, max_arcs) := s in
  let all_arcs := if decide (c = c_hash \/ c = c_dot) then all_arcs + 1 else all_arcs in
  let max_arcs := if decide (c = c_hash) then max_arcs + 1 else max_arcs in
  let vertices := if decide (c = c_slash /\ vertices = 0) then all_arcs else vertices in
  if decide (c = c_slash) then
    if decide (vertices = 0) then Bad Arith else
    if decide (all_arcs mod vertices <> 0) then Ok (inr tt) else Ok (inl (vertices, all_arcs, max_arcs))
  else Ok (inl (vertices, all_arcs, max_arcs)).

(** The writing loop (src/digraph_debug.c 146-157), state (curr_array_pos,
    curr_row, curr_col, head, tail_ptr). *)
Definition write_string (c : ascii) (s : nat * nat * nat * option (arr nat) * option (arr nat))
    : R (nat * nat * nat * option (arr nat) * option (arr nat)) :=
  let '(pos, row, col, head, tail) := s in
  let! hp := (if decide (c = c_hash) then
                let! head := aset head pos col in Ok (head, wrapN (ai_max cfg) (pos + 1))
              else Ok (head, pos)) in
  let '(head, pos) := hp in
  let col := if decide (c = c_hash \/ c = c_dot) then wrapN (pi_max cfg) (col + 1) else col in
  if decide (c = c_slash) then
    let! tail := aset tail (row + 1) pos in
    Ok (pos, row + 1, 0, head, tail)
  else Ok (pos, row, col, head, tail).

(** iscc_digraph_from_string (src/digraph_debug.c 119-163). [cs]: the characters
    before the terminating one. *)
Definition digraph_from_string (cs : list ascii) : M (ecode * digraph) :=
  let* r := lift (foldXR count_string (0, 0, 0) cs) in
  match r with
  | inr _ =>
      let* ec := make_error ER_INVALID_INPUT "src/digraph_debug.c" 134 in
      Mret (ec, dg_null)
  | inl (vertices, _, max_arcs) =>
      let* r := init_digraph cfg vertices max_arcs in
      let '(ec, dg) := r in
      if decide (ec <> ER_OK) then Mret (ec, dg) else
      let* s := lift (
        let! tail := aset (dg_tail dg) 0 0 in
        let! s := foldR write_string (0, 0, 0, dg_head dg, tail) cs in
        let '(pos, _, _, head, tail) := s in
        let! tail := aset tail vertices pos in
        Ok (head, tail)) in
      let '(head, tail) := s in
      Mret (ER_OK, DG (dg_n dg) (dg_max dg) head tail)
  end.

(** iscc_copy_digraph (src/digraph_debug.c 166-185). *)
Definition copy_digraph (in_dg : digraph) : M (ecode * digraph) :=
  if decide (dg_n in_dg = 0) then empty_digraph cfg 0 0 else
  let* num_arcs := lift (aget (dg_tail in_dg) (dg_n in_dg)) in
  let* r := init_digraph cfg (dg_n in_dg) num_arcs in
  let '(ec, dg) := r in
  if decide (ec <> ER_OK) then Mret (ec, dg) else
  let* t := lift (acopy (dg_tail dg) (dg_tail in_dg) (dg_n in_dg + 1)) in
  let* h := lift (if decide (0 < num_arcs) then acopy (dg_head dg) (dg_head in_dg) num_arcs else Ok (dg_head dg)) in
  Mret (ER_OK, DG (dg_n dg) (dg_max dg) h t).

(** iscc_print_digraph (src/digraph_debug.c 188-224); the result is what is
    printed. *)
Definition print_digraph (dg : digraph) : M (list ascii) :=
  if decide (dg_n dg = 0) then Mret ["["%char; "]"%char; c_newline; c_newline] else
  let* single_row := calloc_arr (dg_n dg) false in
  match single_row with
  | None => Mret (list_ascii_of_string "Out of memory." ++ [c_newline; c_newline])
  | Some _ =>
      let* r := lift (forR (dg_n dg) 0 (single_row, []) (fun v '(row, out) =>
        let! row := for_arcs dg v row (fun x row => aset row x true) in
        let! r := forR (dg_n dg) 0 (row, out) (fun i '(row, out) =>
          let! m := aget row i in
          let! row := aset row i false in
          Ok (row, out ++ [if m : bool then c_hash else c_dot])) in
        let '(row, out) := r in
        Ok (row, out ++ [c_newline]))) in
      let* _ := free_arr single_row in
      Mret (r.2 ++ [c_newline])
  end.

End Debug.

(** scc_get_compiled_version (src/scclust.c 38-45; numbers from dist_info 22-24):
    the contents of the three variables pointed to ([None] for NULL pointers)
    after the call. *)
Definition get_compiled_version (out_major out_minor out_patch : option N) : option N * option N * option N :=
  let out (p : option N) (v : N) := match p with Some _ => Some v | None => None end in
  (out out_major 0, out out_minor 1, out out_patch 1)%N.
