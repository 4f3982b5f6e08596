(** Model of the built-in data set and distance functions (src/data_set_struct.h,
    src/dist_search_imp.c). *)

From stdpp Require Import prelude list.
From Coq Require Import NArith ZArith.
From Verif Require Import Base World Mem Digraph Float Spi.

(** scc_DataSet (src/data_set_struct.h 38-43). *)
Record dataset := DataSet {
  ds_version : Z;
  ds_n : nat;
  ds_dim : nat;
  ds_matrix : option (list double)      (* the user's array *)
}.

(** ISCC_DATASET_STRUCT_VERSION (src/data_set_struct.h 46). *)
Definition dataset_version : Z := 722328001.

(** scc_is_initialized_data_set (src/data_set.c 98-106). *)
Definition is_initialized_data_set (d : option dataset) : bool :=
  match d with
  | None => false
  | Some d =>
      bool_decide (ds_version d = dataset_version) && bool_decide (ds_n d <> 0) && bool_decide (ds_dim d <> 0) &&
      match ds_matrix d with None => false | Some _ => true end
  end.

(** iscc_get_sq_dist (dist_search_imp.c 37-56). *)
Definition sq_dist (d : dataset) (i j : nat) : R double :=
  match ds_matrix d with
  | None => Bad NullPtr
  | Some m =>
      forR (ds_dim d) 0 d_zero (fun t acc =>
        let! a := lget m (i * ds_dim d + t) in
        let! b := lget m (j * ds_dim d + t) in
        let v := d_sub a b in
        Ok (d_add acc (d_mul v v)))
  end.

(** Element [i] of an index array argument. *)
Definition iat (q : indices) (i : nat) : R nat :=
  match q.2 with None => Ok i | Some l => lget l i end.

(** iscc_imp_check_data_set (dist_search_imp.c 63-69). *)
Definition imp_check (d : option dataset) : bool := is_initialized_data_set d.

(** iscc_imp_num_data_points (dist_search_imp.c 72-78). *)
Definition imp_num (d : option dataset) : nat := match d with None => 0 | Some d => ds_n d end.

Definition with_ds {A} (d : option dataset) (k : dataset -> R A) : R A :=
  match d with None => Bad NullPtr | Some d => k d end.

(** iscc_imp_get_dist_matrix (dist_search_imp.c 81-107); the distances are
    returned in the order they are written. *)
Definition imp_matrix (d : option dataset) (q : indices) : M (option (list double)) :=
  lift (with_ds d (fun d =>
    let! out := forR q.1 0 [] (fun p1 out =>
      forR (q.1 - (p1 + 1)) (p1 + 1) out (fun p2 out =>
        let! i := iat q p1 in
        let! j := iat q p2 in
        let! x := sq_dist d i j in
        Ok (out ++ [d_sqrt x]))) in
    Ok (Some out))).

(** iscc_imp_get_dist_rows (dist_search_imp.c 110-156). *)
Definition imp_rows (d : option dataset) (q c : indices) : M (option (list double)) :=
  lift (with_ds d (fun d =>
    let! out := forR q.1 0 [] (fun a out =>
      forR c.1 0 out (fun b out =>
        let! i := iat q a in
        let! j := iat c b in
        let! x := sq_dist d i j in
        Ok (out ++ [d_sqrt x]))) in
    Ok (Some out))).

(** iscc_MaxDistObject, iscc_NNSearchObject (dist_search_imp.c 163-168, 290-295):
    the block they live in, the data set and the search points. The search
    indices are held by value: no caller changes or frees the array while the
    object exists. *)
Record sobj := SObj { so_blk : nat; so_ds : option dataset; so_set : indices }.

(** iscc_imp_init_max_dist_object, iscc_imp_init_nn_search_object
    (dist_search_imp.c 174-197, 320-340). *)
Definition imp_init (d : option dataset) (s : indices) : M (option sobj) :=
  let* b := malloc 1 in
  match b with
  | None => Mret None
  | Some b => Mret (Some (SObj b d s))
  end.

(** Access to a search object that may have been freed. *)
Definition deref (b : nat) : M unit :=
  fun w => if decide (b ∈ w_live w) then Ok (tt, w) else Bad BadFree.

(** iscc_imp_close_max_dist_object, iscc_imp_close_nn_search_object
    (dist_search_imp.c 275-283, 471-479). *)
Definition imp_close (o : sobj) : M bool :=
  let* _ := free (Some (so_blk o)) in Mret true.

(** iscc_imp_get_max_dist (dist_search_imp.c 200-272). Element [q] of
    out_max_indices is written when a distance exceeds the largest so far; an
    element that is never written is returned to the caller indeterminate,
    which is represented by an outcome of its own. *)
Definition imp_max_get (o : sobj) (q : indices) : M (option (list nat * list double)) :=
  let* _ := deref (so_blk o) in
  lift (with_ds (so_ds o) (fun d =>
    let! r := forR q.1 0 ([], []) (fun a '(is, out) =>
      let! r := forR (so_set o).1 0 (d_minus1, None) (fun b '(mx, ix) =>
        let! i := iat q a in
        let! j := iat (so_set o) b in
        let! x := sq_dist d i j in
        Ok (if d_lt mx x then (x, Some j) else (mx, ix))) in
      let '(mx, ix) := r in
      match ix with
      | None => Bad Uninit
      | Some j => Ok (is ++ [j], out ++ [d_sqrt mx])
      end) in
    Ok (Some r))).

(** iscc_add_dist_to_list (dist_search_imp.c 301-317). [pos] is the position of
    the pointers dist_list and index_list relative to dist_list_start and the
    start [off] of the index list. *)
Fixpoint add_dist (d : double) (x pos off : nat) (sc : list (option double)) (ix : list (option nat))
    : R (list (option double) * list (option nat)) :=
  match pos with
  | 0 =>
      let! sc := cset sc 0 d in
      let! ix := cset ix off x in
      Ok (sc, ix)
  | S p =>
      let! prev := cget sc p in
      if d_lt d prev then
        let! sc := cset sc pos prev in
        let! y := cget ix (off + p) in
        let! ix := cset ix (off + pos) y in
        add_dist d x p off sc ix
      else
        let! sc := cset sc pos d in
        let! ix := cset ix (off + pos) x in
        Ok (sc, ix)
  end.

(** State of a search: sort_scratch and out_nn_indices. *)
Notation scratch := (list (option double) * list (option nat))%type.

(** The neighbours of one query (dist_search_imp.c 377-418, 420-461): result is
    [found] and the arrays. [off] is the position of index_write. *)
Definition nn_query (d : dataset) (s : indices) (query k off : nat) (rad : option double) (st : scratch)
    : R (nat * scratch) :=
  let! r :=
    match rad with
    | Some r =>
        let rsq := d_mul r r in
        let! e := loopR (T := nat * (nat * scratch)) s.1 0 (0, st) (fun i '(found, (sc, ix)) =>
          if decide (found < k) then
            let! j := iat s i in
            let! x := sq_dist d query j in
            if d_gt x rsq then Ok (inl (found, (sc, ix)))
            else let! st := add_dist x j found off sc ix in Ok (inl (found + 1, st))
          else Ok (inr (i, (found, (sc, ix))))) in
        Ok (match e with inl fs => (s.1, fs) | inr r => r end)
    | None =>
        let! st := forR k 0 st (fun i '(sc, ix) =>
          let! j := iat s i in
          let! x := sq_dist d query j in
          add_dist x j i off sc ix) in
        Ok (k, (k, st))
    end in
  let '(i, (found, st)) := r in
  let! st := forR (s.1 - i) i st (fun i '(sc, ix) =>
    let! j := iat s i in
    let! x := sq_dist d query j in
    let! last := cget sc (k - 1) in
    if d_ge x last then Ok (sc, ix) else add_dist x j (k - 1) off sc ix) in
  Ok (found, st).

(** iscc_imp_nearest_neighbor_search (dist_search_imp.c 343-468). The caller
    provides len_query_indices * k elements for the neighbours. *)
Definition imp_nn_search (o : sobj) (q : indices) (k : nat) (rad : option double) : M (option (list nat * list nat)) :=
  let* _ := deref (so_blk o) in
  let* sc := malloc_arr double k in
  match sc with
  | None => Mret None
  | Some a =>
      let* r := lift (with_ds (so_ds o) (fun d =>
        let! r := forR q.1 0 ([], (a_cells a, fresh nat (q.1 * k))) (fun i '(ok, st) =>
          let! query := iat q i in
          let! r := nn_query d (so_set o) query k (length ok * k) rad st in
          let '(found, st) := r in
          Ok (if decide (found = k) then (ok ++ [query], st) else (ok, st))) in
        let '(ok, (_, ix)) := r in
        let! nn := forR (length ok * k) 0 [] (fun i acc => let! x := cget ix i in Ok (acc ++ [x])) in
        Ok (ok, nn))) in
      let* _ := free_arr (Some a) in
      Mret (Some r)
  end.

(** The default entries of the function table (src/scclust_spi.c 33-44). *)
Definition builtin : provider := {|
  p_ds := option dataset; p_nn := sobj; p_mx := sobj;
  p_check := imp_check; p_num := imp_num; p_matrix := imp_matrix; p_rows := imp_rows;
  p_mx_init := imp_init; p_mx_get := imp_max_get; p_mx_close := imp_close;
  p_nn_init := imp_init; p_nn_search := imp_nn_search; p_nn_close := imp_close
|}.
