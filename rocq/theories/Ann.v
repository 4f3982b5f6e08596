(** Model of the search functions that pass nearest neighbour searches on to the ANN
    library (examples/ann/ann_wrapper.cpp). *)

From stdpp Require Import prelude list.
From Coq Require Import NArith ZArith.
From Verif Require Import Base World Mem Float Spi Dist Sim.

(** The ANN library. Points are given by the positions of their first coordinates in the
    data matrix: the wrapper passes pointers into it. [ann_k m dim pts q k] are the [k]
    elements annkSearch writes to its index array for the query point [q] and the search
    points [pts]; [ann_fr m dim pts q r k] is what annkFRSearch returns and the [k]
    elements it writes, [None] being ANN_NULL_IDX. The error margin SCC_ANN_EPS
    (ann_wrapper.cpp 42-44) is part of the library. *)
Record ann_lib := AnnLib {
  ann_k : list double -> nat -> list nat -> nat -> nat -> list nat;
  ann_fr : list double -> nat -> list nat -> nat -> double -> nat -> nat * list (option nat)
}.

Section Ann.
(** [pi_int] tells whether scc_PointIndex is int (the macro SCC_M_POINTINDEX_TYPE_int). *)
Context (lib : ann_lib) (pi_int : bool).

(** iscc_NNSearchObject (ann_wrapper.cpp 81-88): the blocks of the object, of the array
    search_points and of the search tree, then the data set, the search indices and the
    elements of search_points. As in [sobj] the search indices are held by value. *)
Record aobj := AObj {
  ao_blk : nat; ao_pblk : nat; ao_tblk : nat;
  ao_ds : option dataset; ao_set : indices; ao_points : list nat
}.

(** Pointer to the coordinates of point [i]. *)
Definition point_at (d : dataset) (i : nat) : R nat :=
  match ds_matrix d with
  | None => Bad NullPtr
  | Some m => if decide (i * ds_dim d <= length m) then Ok (i * ds_dim d) else Bad Oob
  end.

(** The counter iscc_ann_open_search_objects (ann_wrapper.cpp 77) is the provider's
    private state. *)
Definition get_open : M nat := fun w => Ok (w_tick w, w).
Definition set_open (t : nat) : M unit := fun w => Ok (tt, World (w_fail w) (w_next w) (w_live w) (w_err w) t (w_most w)).

(** iscc_ann_init_nn_search_object (ann_wrapper.cpp 108-164). Operator new and the
    constructor of the tree throw if memory runs out; the exceptions are caught. The tree
    is a single block. *)
Definition ann_init (d : option dataset) (s : indices) : M (option aobj) :=
  if (i32max <? N.of_nat s.1)%N then Mret None else
  let* pb := malloc s.1 in
  match pb with
  | None => Mret None
  | Some pb =>
  let* ob := malloc 1 in
  match ob with
  | None => Mret None
  | Some ob =>
  let* pts := lift (with_ds d (fun d =>
    forR s.1 0 [] (fun i acc => let! x := iat s i in let! p := point_at d x in Ok (acc ++ [p])))) in
  let* tb := malloc s.1 in
  match tb with
  | None =>
      let* _ := free (Some pb) in
      let* _ := free (Some ob) in
      Mret None
  | Some tb =>
      let* t := get_open in
      let* _ := set_open (t + 1) in
      Mret (Some (AObj ob pb tb d s pts))
  end
  end
  end.

(** One call of annkSearch or annkFRSearch for the point [query]
    (ann_wrapper.cpp 226-231, 247-253, 294-299, 326-332): how many neighbours were found,
    and the elements of the index array. annkSearch always finds [k]. *)
Definition ann_call (d : dataset) (pts : list nat) (query k : nat) (rad : option double) : R (nat * list (option nat)) :=
  match ds_matrix d with
  | None => Bad NullPtr
  | Some m =>
      let! p := point_at d query in
      Ok (match rad with
          | None => (k, Some <$> ann_k lib m (ds_dim d) pts p k)
          | Some r => ann_fr lib m (ds_dim d) pts p (d_mul r r) k
          end)
  end.

(** The library's results stored at position [off] of the array [ix] (write_nnidx and
    idx_scratch are arrays of the caller and of the wrapper). *)
Definition store (xs : list (option nat)) (off : nat) (ix : list (option nat)) : R (list (option nat)) :=
  if decide (off + length xs <= length ix) then Ok (take off ix ++ xs ++ drop (off + length xs) ix) else Bad Oob.

(** The searches whose results ANN writes to out_nn_indices itself
    (ann_wrapper.cpp 217-262). *)
Definition direct_search (d : dataset) (pts : list nat) (q : indices) (k : nat) (rad : option double) (ix : list (option nat))
    : R (list nat * list (option nat)) :=
  forR q.1 0 ([], ix) (fun i '(ok, ix) =>
    let! query := iat q i in
    let! r := ann_call d pts query k rad in
    let! ix := store r.2 (length ok * k) ix in
    Ok (if decide (k <= r.1) then (ok ++ [query], ix) else (ok, ix))).

(** The searches whose results are translated (ann_wrapper.cpp 284-353). *)
Definition translated_search (d : dataset) (o : aobj) (q : indices) (k : nat) (rad : option double) (sc ix : list (option nat))
    : R (list nat * (list (option nat) * list (option nat))) :=
  forR q.1 0 ([], (sc, ix)) (fun i '(ok, (sc, ix)) =>
    let! query := iat q i in
    let! r := ann_call d (ao_points o) query k rad in
    let! sc := store r.2 0 sc in
    if decide (k <= r.1) then
      let! ix := forR k 0 ix (fun j ix =>
        let! t := cget sc j in
        let! x := iat (ao_set o) t in
        cset ix (length ok * k + j) x) in
      Ok (ok ++ [query], (sc, ix))
    else Ok (ok, (sc, ix))).

(** The neighbours left in out_nn_indices for the queries in [ok]. *)
Definition neighbours (ok : list nat) (k : nat) (ix : list (option nat)) : R (list nat * list nat) :=
  let! nn := forR (length ok * k) 0 [] (fun i acc => let! x := cget ix i in Ok (acc ++ [x])) in
  Ok (ok, nn).

(** The second part of iscc_ann_nearest_neighbor_search (ann_wrapper.cpp 275-360).
    Element [i] of dist_scratch is written by the library and not read. *)
Definition ann_search_2 (o : aobj) (q : indices) (k : nat) (rad : option double) (ix : list (option nat)) : M (option (list nat * list nat)) :=
  let* ib := malloc_arr nat k in
  match ib with
  | None => Mret None
  | Some ib =>
  let* db := malloc_arr double k in
  match db with
  | None => Mret None
  | Some db =>
      let* r := lift (with_ds (ao_ds o) (fun d =>
        let! r := translated_search d o q k rad (a_cells ib) ix in
        neighbours r.1 k r.2.2)) in
      let* _ := free_arr (Some ib) in
      let* _ := free_arr (Some db) in
      Mret (Some r)
  end
  end.

(** iscc_ann_nearest_neighbor_search (ann_wrapper.cpp 167-361). The caller provides
    len_query_indices * k elements for the neighbours. The closing brace of the branch
    for radius searches is misplaced: releasing dist_scratch and returning (264-268)
    belong to that branch, so a search without radius goes on with the second part. *)
Definition ann_search (o : aobj) (q : indices) (k : nat) (rad : option double) : M (option (list nat * list nat)) :=
  let* _ := deref (ao_blk o) in
  let* _ := deref (ao_tblk o) in
  if (i32max <? N.of_nat k)%N then Mret None else
  let ix := fresh nat (q.1 * k) in
  if pi_int && match (ao_set o).2 with None => true | Some _ => false end then
    let* db := malloc_arr double k in
    match db with
    | None => Mret None
    | Some db =>
        let* r := lift (with_ds (ao_ds o) (fun d => direct_search d (ao_points o) q k rad ix)) in
        match rad with
        | None => ann_search_2 o q k rad r.2
        | Some _ =>
            let* r := lift (neighbours r.1 k r.2) in
            let* _ := free_arr (Some db) in
            Mret (Some r)
        end
    end
  else ann_search_2 o q k rad ix.

(** iscc_ann_close_nn_search_object (ann_wrapper.cpp 364-387); annClose only releases
    memory of the ANN library. *)
Definition ann_close (o : aobj) : M bool :=
  let* _ := deref (ao_blk o) in
  let* _ := free (Some (ao_tblk o)) in
  let* _ := free (Some (ao_pblk o)) in
  let* _ := free (Some (ao_blk o)) in
  let* t := get_open in
  if decide (t <= 0) then Mret false else
  let* _ := set_open (t - 1) in
  Mret true.

(** The function table after scc_set_ann_dist_search (ann_wrapper.cpp 95-101): the
    built-in functions with the search functions replaced. *)
Definition ann_funs : pfuns (option dataset) aobj sobj :=
  PFuns _ _ _ imp_matrix imp_rows imp_init imp_max_get imp_close ann_init ann_search ann_close.
Definition ann : provider := provider_of imp_check imp_num ann_funs.
End Ann.
