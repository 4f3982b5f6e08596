(** Hierarchical clustering (src/hierarchical_clustering.c). *)

From Coq Require Import Strings.String.
From stdpp Require Import prelude list.
From Coq Require Import NArith ZArith.
From Verif Require Import Base World Mem Float Spi Options.
Open Scope string_scope. Open Scope list_scope. Open Scope nat_scope.

Definition src_hier : string := "src/hierarchical_clustering.c".

(** ISCC_HI_NUM_TO_CHECK (src/hierarchical_clustering.c 35). *)
Definition num_check : nat := 100.

(** An array of iscc_hi_DistanceEdge (src/hierarchical_clustering.c 42-47) in one
    block: the fields head and distance, and the field next_dist, which is the
    index of an edge in the same array or NULL. *)
Record estore := ES {
  es_blk : nat;
  es_hd : list (option (nat * double));
  es_nx : list (option (option nat))
}.

(** iscc_hi_ClusterItem (src/hierarchical_clustering.c 50-54); members is an
    offset in pointindex_store. *)
Record hitem := HI { hi_size : nat; hi_marker : N; hi_mem : nat }.

(** Arrays of iscc_hi_WorkArea (src/hierarchical_clustering.c 65-72) and
    pointindex_store (57-62). *)
Record hst := HSt {
  h_p1 : option (arr nat);      (* pointindex_array1 *)
  h_p2 : option (arr nat);      (* pointindex_array2 *)
  h_ds : option (arr double);   (* dist_array *)
  h_mk : option (arr N);        (* vertex_markers *)
  h_e1 : option estore;         (* edge_store1 *)
  h_e2 : option estore;         (* edge_store2 *)
  h_st : option (arr nat)       (* pointindex_store *)
}.

Definition eget (e : option estore) (i : nat) : R (nat * double) :=
  match e with Some e => cget (es_hd e) i | None => Bad NullPtr end.
Definition enext (e : option estore) (i : nat) : R (option nat) :=
  match e with Some e => cget (es_nx e) i | None => Bad NullPtr end.
Definition eset_next (e : option estore) (i : nat) (q : option nat) : R (option estore) :=
  match e with Some e => let! nx := cset (es_nx e) i q in Ok (Some (ES (es_blk e) (es_hd e) nx)) | None => Bad NullPtr end.
Definition eset (e : option estore) (i : nat) (x : nat * double) : R (option estore) :=
  match e with Some e => let! hd := cset (es_hd e) i x in Ok (Some (ES (es_blk e) hd (es_nx e))) | None => Bad NullPtr end.

(** iscc_hi_get_next_marker (src/hierarchical_clustering.c 584-601). *)
Definition next_marker (cfg : config) (it : hitem) (st : option (arr nat)) (mk : option (arr N)) : R (hitem * option (arr N)) :=
  let! r := (if decide (hi_marker it = fast16_max cfg) then
               let! mk := forR (hi_size it) 0 mk (fun i mk =>
                 let! x := aget st (hi_mem it + i) in
                 aset mk x 0%N) in
               Ok (0%N, mk)
             else Ok (hi_marker it, mk)) in
  let '(m, mk) := r in
  Ok (HI (hi_size it) (m + 1)%N (hi_mem it), mk).

(** iscc_hi_get_next_dist (src/hierarchical_clustering.c 625-640). Every round
    unlinks an edge, so as many rounds as there are edges suffice
    ([next_dist_sat]). *)
Fixpoint next_dist (fuel : nat) (e : option estore) (prev : nat) (mk : option (arr N)) (cm : N) : R (nat * option estore) :=
  match fuel with
  | 0 => Bad FuelOut
  | S fuel =>
      let! q := enext e prev in
      match q with
      | None => Bad NullPtr
      | Some q =>
          let! hd := eget e q in
          let! m := aget mk hd.1 in
          if decide (m = cm) then
            let! q' := enext e q in
            let! e := eset_next e prev q' in
            next_dist fuel e prev mk cm
          else Ok (q, e)
      end
  end.

Definition es_fuel (e : option estore) : nat := match e with Some e => S (length (es_nx e)) | None => 1 end.

(** iscc_hi_get_next_k_nn (src/hierarchical_clustering.c 604-622). *)
Definition next_k_nn (e : option estore) (prev k : nat) (mk : option (arr N)) (cm : N) (out : option (arr nat))
    : R (nat * option estore * option (arr nat)) :=
  forR k 0 (prev, e, out) (fun found '(prev, e, out) =>
    let! r := next_dist (es_fuel e) e prev mk cm in
    let '(prev, e) := r in
    let! hd := eget e prev in
    let! out := aset out found hd.1 in
    Ok (prev, e, out)).

(** iscc_hi_move_point_to_cluster1 (src/hierarchical_clustering.c 643-657). *)
Definition move_point1 (id : nat) (it : hitem) (st : option (arr nat)) (mk : option (arr N)) (cm : N)
    : R (hitem * option (arr nat) * option (arr N)) :=
  let! mk := aset mk id cm in
  let! st := aset st (hi_mem it + hi_size it) id in
  Ok (HI (hi_size it + 1) (hi_marker it) (hi_mem it), st, mk).

(** iscc_hi_move_point_to_cluster2 (src/hierarchical_clustering.c 660-675). *)
Definition move_point2 (id : nat) (it : hitem) (st : option (arr nat)) (mk : option (arr N)) (cm : N)
    : R (hitem * option (arr nat) * option (arr N)) :=
  if decide (hi_mem it = 0) then Bad Arith else
  let! mk := aset mk id cm in
  let! st := aset st (hi_mem it - 1) id in
  Ok (HI (hi_size it + 1) (hi_marker it) (hi_mem it - 1), st, mk).

(** iscc_hi_move_array_to_cluster1 (src/hierarchical_clustering.c 678-700); the
    size is updated element by element. *)
Definition move_array1 (len : nat) (ids : option (arr nat)) (it : hitem) (st : option (arr nat)) (mk : option (arr N)) (cm : N)
    : R (hitem * option (arr nat) * option (arr N)) :=
  forR len 0 (it, st, mk) (fun j '(it, st, mk) =>
    let! id := aget ids j in
    move_point1 id it st mk cm).

(** iscc_hi_move_array_to_cluster2 (src/hierarchical_clustering.c 703-725). *)
Definition move_array2 (len : nat) (ids : option (arr nat)) (it : hitem) (st : option (arr nat)) (mk : option (arr N)) (cm : N)
    : R (hitem * option (arr nat) * option (arr N)) :=
  forR len 0 (it, st, mk) (fun j '(it, st, mk) =>
    let! id := aget ids j in
    move_point2 id it st mk cm).

Definition d_ptr {A} (off : nat) (p : option (arr A)) : option (list (option A)) :=
  match p with Some a => Some (drop off (a_cells a)) | None => None end.

Section Hier.
Context (cfg : config) (P : provider).
(** qsort with iscc_hi_compare_dist_edges on the fields head and distance. The
    order of edges at the same distance is not determined, so the result may
    depend on the state. *)
Context (qs : world -> list (nat * double) -> list (nat * double)).
(** [log2cap c n] is (size_t) (c * log2(n)). *)
Context (log2cap : nat -> nat -> nat).

(** State of the loop at 778-790 of src/hierarchical_clustering.c: max_dist, the
    centers ([None]: not set), vertex_markers, to_check, write_in_to_check. *)
Notation center_state := (double * option (nat * nat) * option (arr N) * option (arr nat) * nat)%type.

(** One round of that loop. *)
Definition center_step (cm : N) (p2 : option (arr nat)) (ds : option (arr double)) (i : nat) (s : center_state) : R center_state :=
  let '(md, cc, mk, p1, wr) := s in
  let! d := aget ds i in
  let! r := (if d_gt d md then
               let! a := aget p1 i in
               let! b := aget p2 i in
               Ok (d, Some (a, b))
             else Ok (md, cc)) in
  let '(md, cc) := r in
  let! x := aget p2 i in
  let! m := aget mk x in
  if decide (m <> cm) then
    let! mk := aset mk x cm in
    let! p1 := aset p1 wr x in
    Ok (md, cc, mk, p1, wr + 1)
  else Ok (md, cc, mk, p1, wr).

(** State of the loop at 771-793: num_to_check, max_dist, the centers, to_check,
    max_indices, max_dists, vertex_markers. *)
Notation centers_state := (nat * double * option (nat * nat) * option (arr nat) * option (arr nat) * option (arr double) * option (arr N))%type.

(** One round of that loop; [inr None] if the search fails. *)
Definition centers_iter (o : p_mx P) (cm : N) (s : centers_state) : M (centers_state + option centers_state) :=
  let '(num, md, cc, p1, p2, ds, mk) := s in
  if decide (0 < num) then
    let* r := max_dist P o num (acells p1) p2 ds in
    match r with
    | None => Mret (inr None)
    | Some (p2, ds) =>
        let* r := lift (forR num 0 (md, cc, mk, p1, 0) (center_step cm p2 ds)) in
        let '(md, cc, mk, p1, wr) := r in
        Mret (inl (wr, md, cc, p1, p2, ds, mk))
    end
  else Mret (inr (Some s)).

(** Number of points to start with and their distance (src/hierarchical_clustering.c 753-757). *)
Definition check_step (size : nat) : nat := if decide (size / num_check < 2) then 2 else size / num_check.
Definition check_count (size : nat) : nat :=
  let num := wrapN (fast16_max cfg) (1 + (size - 1) / check_step size) in
  if decide (num_check < num) then num_check else num.

(** iscc_hi_find_centers (src/hierarchical_clustering.c 728-800). The result has
    the centers ([None] if they were not set), the cluster and the arrays. Every
    round of the loop marks further members, so [size + 1] rounds suffice
    ([Msat_find_centers]). *)
Definition find_centers (it : hitem) (ds : p_ds P) (h : hst) : M (ecode * option (nat * nat) * hitem * hst) :=
  let* r := lift (next_marker cfg it (h_st h) (h_mk h)) in
  let '(it, mk) := r in
  let cm := hi_marker it in
  let size := hi_size it in
  let* r := lift (forR (check_count size) 0 (h_p1 h, mk) (fun i '(p1, mk) =>
    let! x := aget (h_st h) (hi_mem it + i * check_step size) in
    let! p1 := aset p1 i x in
    let! mk := aset mk x cm in
    Ok (p1, mk))) in
  let '(p1, mk) := r in
  let* o := mx_init P ds size (d_ptr (hi_mem it) (h_st h)) in
  match o with
  | None =>
      let* ec := make_error ER_DIST_SEARCH_ERROR src_hier 767 in
      Mret (ec, None, it, HSt p1 (h_p2 h) (h_ds h) mk (h_e1 h) (h_e2 h) (h_st h))
  | Some o =>
      let* r := loopM (size + 1) 0 (check_count size, d_minus1, None, p1, h_p2 h, h_ds h, mk) (fun _ => centers_iter o cm) in
      match r with
      | inl _ => Mbad FuelOut
      | inr None =>
          let* _ := p_mx_close P o in
          let* ec := make_error ER_DIST_SEARCH_ERROR src_hier 774 in
          Mret (ec, None, it, h)
      | inr (Some (_, _, cc, p1, p2, dd, mk)) =>
          let h := HSt p1 p2 dd mk (h_e1 h) (h_e2 h) (h_st h) in
          let* ok := p_mx_close P o in
          if negb ok then
            let* ec := make_error ER_DIST_SEARCH_ERROR src_hier 796 in
            Mret (ec, cc, it, h)
          else Mret (ER_OK, cc, it, h)
      end
  end.

(** iscc_hi_sort_edge_list (src/hierarchical_clustering.c 838-866); [off] is the
    offset of row_dists in dist_array. qsort also moves the fields next_dist,
    which are all overwritten afterwards. *)
Definition sort_edge_list (w : world) (it : hitem) (center : nat) (st : option (arr nat)) (dd : option (arr double)) (off : nat) (e : option estore)
    : R (option estore) :=
  let size := hi_size it in
  let! r := forR size 0 (1, e) (fun i '(wr, e) =>
    let! x := aget st (hi_mem it + i) in
    if decide (x = center) then Ok (wr, e) else
    let! d := aget dd (off + i) in
    let! e := eset e wr (x, d) in
    Ok (wr + 1, e)) in
  let '(_, e) := r in
  let! l := forR (size - 1) 1 [] (fun i acc => let! x := eget e i in Ok (acc ++ [x])) in
  let! e := foldR (fun '(i, x) e => eset e i x) e (zip (seq 1 (size - 1)) (qs w l)) in
  let! e := forR (size - 1) 0 e (fun i e => eset_next e i (Some (i + 1))) in
  eset_next e (size - 1) None.

(** iscc_hi_populate_edge_lists (src/hierarchical_clustering.c 803-835). *)
Definition populate_edge_lists (it : hitem) (ds : p_ds P) (c1 c2 : nat) (h : hst) : M (ecode * hst) :=
  let* r := dist_rows P ds 2 (Some [Some c1; Some c2]) (hi_size it) (d_ptr (hi_mem it) (h_st h)) (h_ds h) in
  match r with
  | None =>
      let* ec := make_error ER_DIST_SEARCH_ERROR src_hier 828 in
      Mret (ec, h)
  | Some dd =>
      let* w := (fun w => Ok (w, w)) in
      let* e1 := lift (sort_edge_list w it c1 (h_st h) dd 0 (h_e1 h)) in
      let* e2 := lift (sort_edge_list w it c2 (h_st h) dd (hi_size it) (h_e2 h)) in
      Mret (ER_OK, HSt (h_p1 h) (h_p2 h) dd (h_mk h) e1 e2 (h_st h))
  end.

(** The variables of iscc_hi_break_cluster_into_two in the assignment phase:
    the clusters, the last assigned edges, and the arrays. *)
Record bst := BSt {
  b_i1 : hitem; b_i2 : hitem;
  b_l1 : nat; b_l2 : nat;
  b_p1 : option (arr nat); b_p2 : option (arr nat);
  b_e1 : option estore; b_e2 : option estore;
  b_st : option (arr nat); b_mk : option (arr N)
}.

(** Assignment of the first size_constraint - 1 neighbours of both centers
    (src/hierarchical_clustering.c 521-536); [k1] is size_constraint - 1. *)
Definition first_assign (k1 : nat) (cm : N) (b : bst) : R bst :=
  let! r := next_k_nn (b_e1 b) (b_l1 b) k1 (b_mk b) cm (b_p1 b) in
  let '(t1, e1, p1) := r in
  let! r := next_k_nn (b_e2 b) (b_l2 b) k1 (b_mk b) cm (b_p2 b) in
  let '(t2, e2, p2) := r in
  let! d1 := eget e1 t1 in
  let! d2 := eget e2 t2 in
  if d_ge d1.2 d2.2 then
    let! r := move_array1 k1 p1 (b_i1 b) (b_st b) (b_mk b) cm in
    let '(i1, st, mk) := r in
    let! r := next_k_nn e2 (b_l2 b) k1 mk cm p2 in
    let '(l2, e2, p2) := r in
    let! r := move_array2 k1 p2 (b_i2 b) st mk cm in
    let '(i2, st, mk) := r in
    Ok (BSt i1 i2 t1 l2 p1 p2 e1 e2 st mk)
  else
    let! r := move_array2 k1 p2 (b_i2 b) (b_st b) (b_mk b) cm in
    let '(i2, st, mk) := r in
    let! r := next_k_nn e1 (b_l1 b) k1 mk cm p1 in
    let '(l1, e1, p1) := r in
    let! r := move_array1 k1 p1 (b_i1 b) st mk cm in
    let '(i1, st, mk) := r in
    Ok (BSt i1 i2 l1 t2 p1 p2 e1 e2 st mk).

(** One round of the loop at 544-558 of src/hierarchical_clustering.c, which
    assigns [nb] points; [nb] is num_assign_in_batch and [num] num_unassigned. *)
Definition batch_step (cm : N) (s : nat * nat * bst) : R ((nat * nat * bst) + bst) :=
  let '(num, nb, b) := s in
  if decide (0 < num) then
    let nb := if decide (num < nb) then num else nb in
    let! r := next_k_nn (b_e1 b) (b_l1 b) nb (b_mk b) cm (b_p1 b) in
    let '(t1, e1, p1) := r in
    let! r := next_k_nn (b_e2 b) (b_l2 b) nb (b_mk b) cm (b_p2 b) in
    let '(t2, e2, p2) := r in
    let! d1 := eget e1 t1 in
    let! d2 := eget e2 t2 in
    if d_le d1.2 d2.2 then
      let! r := move_array1 nb p1 (b_i1 b) (b_st b) (b_mk b) cm in
      let '(i1, st, mk) := r in
      Ok (inl (num - nb, nb, BSt i1 (b_i2 b) t1 (b_l2 b) p1 p2 e1 e2 st mk))
    else
      let! r := move_array2 nb p2 (b_i2 b) (b_st b) (b_mk b) cm in
      let '(i2, st, mk) := r in
      Ok (inl (num - nb, nb, BSt (b_i1 b) i2 (b_l1 b) t2 p1 p2 e1 e2 st mk))
  else Ok (inr b).

(** One round of the loop at 561-572 of src/hierarchical_clustering.c. *)
Definition single_step (cm : N) (b : bst) : R bst :=
  let! r := next_dist (es_fuel (b_e1 b)) (b_e1 b) (b_l1 b) (b_mk b) cm in
  let '(t1, e1) := r in
  let! r := next_dist (es_fuel (b_e2 b)) (b_e2 b) (b_l2 b) (b_mk b) cm in
  let '(t2, e2) := r in
  let! d1 := eget e1 t1 in
  let! d2 := eget e2 t2 in
  if d_le d1.2 d2.2 then
    let! r := move_point1 d1.1 (b_i1 b) (b_st b) (b_mk b) cm in
    let '(i1, st, mk) := r in
    Ok (BSt i1 (b_i2 b) t1 (b_l2 b) (b_p1 b) (b_p2 b) e1 e2 st mk)
  else
    let! r := move_point2 d2.1 (b_i2 b) (b_st b) (b_mk b) cm in
    let '(i2, st, mk) := r in
    Ok (BSt (b_i1 b) i2 (b_l1 b) t2 (b_p1 b) (b_p2 b) e1 e2 st mk).

(** The part of iscc_hi_break_cluster_into_two after the edge lists are made
    (src/hierarchical_clustering.c 494-580). 2 * size_constraint is a product of
    type uint32_t. *)
Definition divide (it : hitem) (c1 c2 : nat) (k : nat) (batch : bool) (h : hst) : R (hitem * hitem * hst) :=
  let num := hi_size it in
  let! r := next_marker cfg it (h_st h) (h_mk h) in
  let '(it, mk) := r in
  let cm := hi_marker it in
  let i2 := HI 0 cm (hi_mem it + num) in
  let i1 := HI 0 cm (hi_mem it) in
  let! r := move_point1 c1 i1 (h_st h) mk cm in
  let '(i1, st, mk) := r in
  let! r := move_point2 c2 i2 st mk cm in
  let '(i2, st, mk) := r in
  let! b := first_assign (k - 1) cm (BSt i1 i2 0 0 (h_p1 h) (h_p2 h) (h_e1 h) (h_e2 h) st mk) in
  let num := num - wrapN u32max (2 * k) in
  let! b := (if batch then
               let! r := loopR (num + 1) 0 (num, k, b) (fun _ => batch_step cm) in
               match r with inl _ => Bad FuelOut | inr b => Ok b end
             else forR num 0 b (fun _ => single_step cm)) in
  Ok (b_i1 b, b_i2 b, HSt (b_p1 b) (b_p2 b) (h_ds h) (b_mk b) (b_e1 b) (b_e2 b) (b_st b)).

(** iscc_hi_break_cluster_into_two (src/hierarchical_clustering.c 454-581). If
    the centers are not set they are ISCC_POINTINDEX_MAX, which is not the index
    of a point. *)
Definition break_cluster (it : hitem) (ds : p_ds P) (k : nat) (batch : bool) (h : hst) : M (ecode * option (hitem * hitem) * hst) :=
  let* r := find_centers it ds h in
  let '(ec, cc, it, h) := r in
  if decide (ec <> ER_OK) then Mret (ec, None, h) else
  match cc with
  | None => Mbad Oob
  | Some (c1, c2) =>
      let* r := populate_edge_lists it ds c1 c2 h in
      let '(ec, h) := r in
      if decide (ec <> ER_OK) then Mret (ec, None, h) else
      let* r := lift (divide it c1 c2 k batch h) in
      let '(i1, i2, h) := r in
      Mret (ER_OK, Some (i1, i2), h)
  end.

(** iscc_hi_ClusterStack (src/hierarchical_clustering.c 57-62) without
    pointindex_store. *)
Record hstack := HS { s_cap : nat; s_items : nat; s_cl : option (arr hitem) }.

(** iscc_hi_check_capacity (src/hierarchical_clustering.c 420-438). *)
Definition check_capacity (s : hstack) : M (ecode * hstack) :=
  if decide (s_items s = s_cap s) then
    let cap := s_cap s + 16 + s_cap s / 16 in
    if (u64max <? N.of_nat cap)%N then
      let* ec := make_error_msg ER_TOO_LARGE_PROBLEM "Too many clusters." src_hier 429 in Mret (ec, s)
    else
      let* a := realloc_arr (s_cl s) cap in
      match a with
      | None => let* ec := make_error ER_NO_MEMORY src_hier 432 in Mret (ec, s)
      | Some _ => Mret (ER_OK, HS cap (s_items s) a)
      end
  else Mret (ER_OK, s).

(** State of the loop of iscc_hi_run_hierarchical_clustering: the stack, the
    labels, current_label, and the arrays. *)
Notation run_state := (hstack * option (arr Z) * nat * hst)%type.

(** One round (src/hierarchical_clustering.c 379-410); [inr] leaves the loop. *)
Definition run_step (ds : p_ds P) (k : nat) (batch : bool) (st : run_state) : M (run_state + (ecode * run_state)) :=
  let '(s, lab, cur, h) := st in
  if decide (0 < s_items s) then
    let* r := check_capacity s in
    let '(ec, s) := r in
    if decide (ec <> ER_OK) then Mret (inr (ec, (s, lab, cur, h))) else
    let* it := lift (aget (s_cl s) (s_items s - 1)) in
    if decide (hi_size it < wrapN u32max (2 * k)) then
      if decide (0 < hi_size it) then
        if decide (N.of_nat cur = cl_max cfg) then
          let* ec := make_error_msg ER_TOO_LARGE_PROBLEM "Too many clusters (adjust the `scc_Clabel` type)." src_hier 390 in
          Mret (inr (ec, (s, lab, cur, h)))
        else
          let* lab := lift (forR (hi_size it) 0 lab (fun v lab =>
            let! x := aget (h_st h) (hi_mem it + v) in
            aset lab x (Z.of_nat cur))) in
          Mret (inl (HS (s_cap s) (s_items s - 1) (s_cl s), lab, cur + 1, h))
      else Mret (inl (HS (s_cap s) (s_items s - 1) (s_cl s), lab, cur, h))
    else
      let* r := break_cluster it ds k batch h in
      let '(ec, ii, h) := r in
      match ii with
      | Some (i1, i2) =>
          let* a := lift (let! a := aset (s_cl s) (s_items s - 1) i1 in aset a (s_items s) i2) in
          Mret (inl (HS (s_cap s) (s_items s + 1) a, lab, cur, h))
      | None => Mret (inr (ec, (s, lab, cur, h)))
      end
  else Mret (inr (ER_OK, st)).

(** iscc_hi_run_hierarchical_clustering (src/hierarchical_clustering.c 359-417).
    The rounds suffice by [Msat_hi_run]. *)
Definition hi_run (cl : clustering) (ds : p_ds P) (k : nat) (batch : bool) (s : hstack) (h : hst)
    : M (ecode * clustering * hstack * hst) :=
  let* r := loopM (2 * c_n cl + s_items s + 1) 0 (s, c_label cl, 0, h) (fun _ => run_step ds k batch) in
  match r with
  | inl _ => Mbad FuelOut
  | inr (ec, (s, lab, cur, h)) =>
      let cl := set_label cl lab in
      Mret (ec, if decide (ec = ER_OK) then set_k cl cur else cl, s, h)
  end.

(** iscc_hi_empty_cl_stack (src/hierarchical_clustering.c 269-301). *)
Definition empty_cl_stack (n : nat) : M (ecode * option (hstack * option (arr nat))) :=
  let cap := 1 + log2cap 20 n in
  let* cls := malloc_arr hitem cap in
  let* st := malloc_arr nat n in
  match cls, st with
  | Some _, Some _ =>
      let* st := lift (forR n 0 st (fun i st => aset st i i)) in
      let* cls := lift (aset cls 0 (HI n 0 0)) in
      Mret (ER_OK, Some (HS cap 1 cls, st))
  | _, _ =>
      let* _ := free_arr cls in
      let* _ := free_arr st in
      let* ec := make_error ER_NO_MEMORY src_hier 285 in
      Mret (ec, None)
  end.

(** Index of an array element given by a label. *)
Definition label_idx (z : Z) : R nat := if decide (0 <= z)%Z then Ok (Z.to_nat z) else Bad Oob.

(** iscc_hi_init_cl_stack (src/hierarchical_clustering.c 304-356). The pointers
    members of the calloced array are NULL and not used before they are set. The
    result has the size of the largest cluster. *)
Definition init_cl_stack (cl : clustering) : M (ecode * option (hstack * option (arr nat) * nat)) :=
  let n := c_n cl in
  let cap := c_k cl + 1 + log2cap 10 n in
  if (u64max <? N.of_nat cap)%N then
    let* ec := make_error_msg ER_TOO_LARGE_PROBLEM "Too many clusters." src_hier 315 in Mret (ec, None)
  else
  let* cls := calloc_arr cap (HI 0 0 0) in
  let* st := malloc_arr nat n in
  match cls, st with
  | Some _, Some _ =>
      let* cls := lift (forR n 0 cls (fun i cls =>
        let! l := aget (c_label cl) i in
        if decide (l = cl_na cfg) then Ok cls else
        let! j := label_idx l in
        let! it := aget cls j in
        aset cls j (HI (hi_size it + 1) (hi_marker it) (hi_mem it)))) in
      let* cls := lift (let! it := aget cls 0 in aset cls 0 (HI (hi_size it) (hi_marker it) (hi_size it))) in
      let* r := lift (forR (c_k cl - 1) 1 (cls, 0) (fun c '(cls, big) =>
        let! prev := aget cls (c - 1) in
        let! it := aget cls c in
        let! cls := aset cls c (HI (hi_size it) (hi_marker it) (hi_mem prev + hi_size it)) in
        Ok (cls, if decide (big < hi_size it) then hi_size it else big))) in
      let '(cls, big) := r in
      let* r := lift (forR n 0 (cls, st) (fun i '(cls, st) =>
        let! l := aget (c_label cl) i in
        if decide (l = cl_na cfg) then Ok (cls, st) else
        let! j := label_idx l in
        let! it := aget cls j in
        if decide (hi_mem it = 0) then Bad Arith else
        let! cls := aset cls j (HI (hi_size it) (hi_marker it) (hi_mem it - 1)) in
        let! st := aset st (hi_mem it - 1) i in
        Ok (cls, st))) in
      let '(cls, st) := r in
      Mret (ER_OK, Some (HS cap (c_k cl) cls, st, big))
  | _, _ =>
      let* _ := free_arr cls in
      let* _ := free_arr st in
      let* ec := make_error ER_NO_MEMORY src_hier 326 in
      Mret (ec, None)
  end.

Definition malloc_es (n : nat) : M (option estore) :=
  let* p := malloc n in
  Mret (match p with Some b => Some (ES b (fresh _ n) (fresh _ n)) | None => None end).
Definition free_es (e : option estore) : M unit := free (match e with Some e => Some (es_blk e) | None => None end).

(** scc_hierarchical_clustering (src/hierarchical_clustering.c 181-262). *)
Definition hierarchical_clustering (ds : p_ds P) (k : nat) (batch : bool) (cl : option clustering) : M (ecode * option clustering) :=
  let err ec msg line := let* ec := make_error_msg ec msg src_hier line in Mret (ec, cl) in
  if negb (is_initialized_clustering cfg cl) then err ER_INVALID_INPUT "Invalid clustering object." 187%Z else
  match cl with
  | None => Mbad NullPtr
  | Some c =>
  if negb (p_check P ds) then err ER_INVALID_INPUT "Invalid data set object." 190%Z
  else if decide (p_num P ds <> c_n c) then
    err ER_INVALID_INPUT "Number of data points in data set does not match clustering object." 193%Z
  else if decide (k < 2) then err ER_INVALID_INPUT "Size constraint must be 2 or greater." 196%Z
  else if decide (c_n c < k) then err ER_NO_SOLUTION "Fewer data points than size constraint." 199%Z
  else
  let n := c_n c in
  let* r :=
    (if decide (c_k c = 0) then
       let* r :=
         (match c_label c with
          | Some _ => Mret (true, c)
          | None =>
              let* l := malloc_arr Z n in
              Mret (match l with None => false | Some _ => true end, Clu (c_version c) n (c_k c) l false)
          end) in
       let '(ok, c) := r in
       if negb ok then let* ec := make_error ER_NO_MEMORY src_hier 209 in Mret (inr (ec, c)) else
       let* r := empty_cl_stack n in
       match r with
       | (_, Some (s, st)) => Mret (inl (c, s, st, n))
       | (ec, None) => Mret (inr (ec, c))
       end
     else
       let* r := init_cl_stack c in
       match r with
       | (_, Some (s, st, big)) => Mret (inl (c, s, st, big))
       | (ec, None) => Mret (inr (ec, c))
       end) in
  match r with
  | inr (ec, c) => Mret (ec, Some c)
  | inl (c, s, st, big) =>
      let size_p := if decide (num_check < k) then k else num_check in
      let size_d := if decide (num_check < 2 * big) then 2 * big else num_check in
      let* p1 := malloc_arr nat size_p in
      let* p2 := malloc_arr nat size_p in
      let* dd := malloc_arr double size_d in
      let* mk := calloc_arr n 0%N in
      let* e1 := malloc_es big in
      let* e2 := malloc_es big in
      let* r :=
        (match p1, p2, dd, mk, e1, e2 with
         | Some _, Some _, Some _, Some _, Some _, Some _ => hi_run c ds k batch s (HSt p1 p2 dd mk e1 e2 st)
         | _, _, _, _, _, _ =>
             let* ec := make_error ER_NO_MEMORY src_hier 240 in
             Mret (ec, c, s, HSt p1 p2 dd mk e1 e2 st)
         end) in
      let '(ec, c, s, h) := r in
      let* _ := free_arr (h_p1 h) in
      let* _ := free_arr (h_p2 h) in
      let* _ := free_arr (h_ds h) in
      let* _ := free_arr (h_mk h) in
      let* _ := free_es (h_e1 h) in
      let* _ := free_es (h_e2 h) in
      let* _ := free_arr (s_cl s) in
      let* _ := free_arr (h_st h) in
      Mret (ec, Some c)
  end
  end.
End Hier.
