(** The search provider interface (include/scclust_spi.h, src/dist_search.h). *)

From stdpp Require Import prelude list.
From Coq Require Import NArith ZArith.
From Verif Require Import Base World Mem Float.

(** An index array argument with its length: [None] is NULL and stands for
    0, 1, ..., len - 1. *)
Notation indices := (nat * option (list nat))%type.

Definition il_list (q : indices) : list nat :=
  match q.2 with None => seq 0 q.1 | Some l => l end.

(** One set of distance functions (src/dist_search.h 34-46) together with the
    objects they work on. Every function may read and change the provider's
    private state, allocate and free memory, and fail at will (result [None] or
    [false]). Output arrays are returned as lists, the callers' buffers are
    filled by [nn_search] and its siblings below. *)
Record provider := Provider {
  p_ds : Type;                     (* what [void* data_set] points to *)
  p_nn : Type;                     (* iscc_NNSearchObject *)
  p_mx : Type;                     (* iscc_MaxDistObject *)
  p_check : p_ds -> bool;
  p_num : p_ds -> nat;
  p_matrix : p_ds -> indices -> M (option (list double));
  p_rows : p_ds -> indices -> indices -> M (option (list double));
  p_mx_init : p_ds -> indices -> M (option p_mx);
  p_mx_get : p_mx -> indices -> M (option (list nat * list double));
  p_mx_close : p_mx -> M bool;
  p_nn_init : p_ds -> indices -> M (option p_nn);
  (* queries, k, radius (None: no radius search); result: the query indices
     with at least k neighbours, and k neighbours for each *)
  p_nn_search : p_nn -> indices -> nat -> option double -> M (option (list nat * list nat));
  p_nn_close : p_nn -> M bool
}.

(** ** Passing arrays to the provider *)

(** The first [len] elements of an array argument; the provider may read all of
    them. *)
Definition read_idx (len : nat) (p : option (list (option nat))) : R indices :=
  match p with
  | None => Ok (len, None)
  | Some c =>
      let! l := forR len 0 [] (fun i acc => let! x := cget c i in Ok (acc ++ [x])) in
      Ok (len, Some l)
  end.

(** The provider writes results [xs] to the front of a buffer, of which it may
    use [cap] elements as scratch space: those behind the results are left with
    indeterminate content. *)
Definition write_out {A} (cap : nat) (xs : list A) (p : option (arr A)) : R (option (arr A)) :=
  match p with
  | None => Bad NullPtr
  | Some a =>
      if decide (cap <= length (a_cells a) /\ length xs <= cap)
      then Ok (Some (Arr (a_blk a) ((Some <$> xs) ++ fresh A (cap - length xs) ++ drop cap (a_cells a))))
      else Bad Oob
  end.

(** iscc_nearest_neighbor_search (src/dist_search.h 128-149). [outq] is
    [None] if the caller passes NULL for out_query_indices; otherwise
    [Some buffer]. Result: [None] if the provider returned false, else
    num_ok_queries and the two buffers. *)
Definition nn_search (P : provider) (o : p_nn P) (len : nat) (q : option (list (option nat)))
    (k : nat) (rad : option double) (outq : option (option (arr nat))) (outnn : option (arr nat))
    : M (option (nat * option (option (arr nat)) * option (arr nat))) :=
  let* qs := lift (read_idx len q) in
  let* r := p_nn_search P o qs k rad in
  match r with
  | None => Mret None
  | Some (ok, nn) =>
      let* outnn := lift (write_out (len * k) nn outnn) in
      let* outq := lift (match outq with
                         | None => Ok None
                         | Some b => let! b := write_out len ok b in Ok (Some b)
                         end) in
      Mret (Some (length ok, outq, outnn))
  end.

(** iscc_init_nn_search_object (src/dist_search.h 116-126). *)
Definition nn_init (P : provider) (ds : p_ds P) (len : nat) (s : option (list (option nat)))
    : M (option (p_nn P)) :=
  let* s := lift (read_idx len s) in p_nn_init P ds s.

(** iscc_get_dist_rows (src/dist_search.h 67-82). *)
Definition dist_rows (P : provider) (ds : p_ds P) (lenq : nat) (q : option (list (option nat)))
    (lenc : nat) (c : option (list (option nat))) (out : option (arr double))
    : M (option (option (arr double))) :=
  let* q := lift (read_idx lenq q) in
  let* c := lift (read_idx lenc c) in
  let* r := p_rows P ds q c in
  match r with
  | None => Mret None
  | Some d => let* out := lift (write_out (lenq * lenc) d out) in Mret (Some out)
  end.

(** iscc_get_dist_matrix (src/dist_search.h 56-65). *)
Definition dist_matrix (P : provider) (ds : p_ds P) (len : nat) (p : option (list (option nat)))
    (out : option (arr double)) : M (option (option (arr double))) :=
  let* q := lift (read_idx len p) in
  let* r := p_matrix P ds q in
  match r with
  | None => Mret None
  | Some d => let* out := lift (write_out (len * (len - 1) / 2) d out) in Mret (Some out)
  end.

(** iscc_init_max_dist_object, iscc_get_max_dist (src/dist_search.h 89-115). *)
Definition mx_init (P : provider) (ds : p_ds P) (len : nat) (s : option (list (option nat)))
    : M (option (p_mx P)) :=
  let* s := lift (read_idx len s) in p_mx_init P ds s.

Definition max_dist (P : provider) (o : p_mx P) (len : nat) (q : option (list (option nat)))
    (outi : option (arr nat)) (outd : option (arr double))
    : M (option (option (arr nat) * option (arr double))) :=
  let* qs := lift (read_idx len q) in
  let* r := p_mx_get P o qs in
  match r with
  | None => Mret None
  | Some (is, d) =>
      let* outi := lift (write_out len is outi) in
      let* outd := lift (write_out len d outd) in
      Mret (Some (outi, outd))
  end.

(** Pointer to array cells as search argument. *)
Definition acells {A} (p : option (arr A)) : option (list (option A)) :=
  match p with Some a => Some (a_cells a) | None => None end.
Definition ucells {A} (p : option (list A)) : option (list (option A)) :=
  match p with Some l => Some (Some <$> l) | None => None end.

(** ** What a provider promises *)

(** How near points are: [nearer q x y] if [x] is at most as far from [q] as
    [y]; [within r q x] if [x] is within radius [r] of [q]. *)
Record geometry := Geometry {
  nearer : nat -> nat -> nat -> bool;
  within : double -> nat -> nat -> bool
}.

Record geometry_ok (G : geometry) : Prop := {
  near_refl : forall q x, nearer G q x x = true;
  near_total : forall q x y, nearer G q x y = true \/ nearer G q y x = true;
  near_trans : forall q x y z, nearer G q x y = true -> nearer G q y z = true -> nearer G q x z = true;
  (* a point is within every radius that a point at least as far is within *)
  within_near : forall r q x y, nearer G q x y = true -> within G r q y = true -> within G r q x = true
}.

Definition within_opt (G : geometry) (rad : option double) (q x : nat) : bool :=
  match rad with None => true | Some r => within G r q x end.

(** [c] are [k] nearest neighbours of [q] among [S], nearest first. *)
Record nearest (G : geometry) (S : list nat) (k : nat) (q : nat) (c : list nat) : Prop := {
  nst_len : length c = k;
  nst_sub : c ⊆+ S;
  nst_sorted : forall i j x y, i < j -> c !! i = Some x -> c !! j = Some y -> nearer G q x y = true;
  nst_rest : forall rest, c ++ rest ≡ₚ S -> forall x y, x ∈ c -> y ∈ rest -> nearer G q x y = true
}.

(** Result of a search for [k] neighbours of each of [Q] among [S]: the queries
    with at least [k] search points within the radius, in query order, and their
    nearest neighbours. *)
Definition search_ok (G : geometry) (S Q : list nat) (k : nat) (rad : option double)
    (ok nn : list nat) : Prop :=
  ok = filter (fun q => k <= length (filter (fun x => within_opt G rad q x = true) S)) Q /\
  exists cs, nn = concat cs /\
    Forall2 (fun q c => nearest G S k q c /\ Forall (fun x => within_opt G rad q x = true) c) ok cs.

(** Effect of a provider call on the world: it may consume allocation requests
    and change its private state, but leaves the latest error and others' blocks
    alone; [o] are the blocks it holds on to afterwards. *)
Definition peffect (w w' : world) (o : list nat) : Prop :=
  wle w w' /\ own w' o w /\ w_err w' = w_err w.

(** Distances as numbers. *)
Definition dist_fun := nat -> nat -> double.

(** For each of [Q] a point of [S] that is farthest away, and the distance. *)
Definition far_ok (G : geometry) (D : dist_fun) (S Q : list nat) (is : list nat) (ds : list double) : Prop :=
  Forall2 (fun q x => x ∈ S /\ forall y, y ∈ S -> nearer G q y x = true) Q is /\
  Forall2 (fun q xd => xd = D q.1 q.2) (zip Q is) ds.

Fixpoint pairs (l : list nat) : list (nat * nat) :=
  match l with
  | [] => []
  | x :: l' => ((fun y => (x, y)) <$> l') ++ pairs l'
  end.

(** A list of search points as the callers pass them: valid, no repetition. *)
Definition search_set (n : nat) (s : indices) : Prop :=
  il_list s <> [] /\ length (il_list s) = s.1 /\
  Forall (fun x => x < n) (il_list s) /\ NoDup (il_list s).
Definition query_list (n : nat) (q : indices) : Prop :=
  il_list q <> [] /\ length (il_list q) = q.1 /\ Forall (fun x => x < n) (il_list q).

(** How the provider's search objects are to be read: the search points of an
    object, the memory blocks it owns, and whether it is a proper object. *)
Record pview (P : provider) := PView {
  nn_set : p_nn P -> list nat;
  nn_blk : p_nn P -> list nat;
  nn_good : p_nn P -> Prop;
  mx_set : p_mx P -> list nat;
  mx_blk : p_mx P -> list nat;
  mx_good : p_mx P -> Prop
}.
Arguments nn_set {P}. Arguments nn_blk {P}. Arguments nn_good {P}.
Arguments mx_set {P}. Arguments mx_blk {P}. Arguments mx_good {P}.

(** The provider [P] serves the data set [ds] of [n] points. *)
Record provider_ok (P : provider) (V : pview P) (ds : p_ds P) (n : nat)
    (G : geometry) (D : dist_fun) : Prop := {
  pk_check : p_check P ds = true;
  pk_num : p_num P ds = n;
  pk_nn_init : forall w s, search_set n s ->
    Msat none (p_nn_init P ds s) w (fun r w' =>
      match r with
      | None => peffect w w' []
      | Some o => peffect w w' (nn_blk V o) /\ nn_good V o /\ nn_set V o = il_list s
      end);
  pk_nn_search : forall w o q k rad, nn_good V o -> query_list n q ->
    0 < k -> k <= length (nn_set V o) ->
    (forall x, cnt x (nn_blk V o) <= cnt x (w_live w)) ->
    Msat none (p_nn_search P o q k rad) w (fun r w' =>
      peffect w w' [] /\
      match r with
      | None => True
      | Some (ok, nn) => search_ok G (nn_set V o) (il_list q) k rad ok nn
      end);
  pk_nn_close : forall w o, nn_good V o -> (forall x, cnt x (nn_blk V o) <= cnt x (w_live w)) ->
    Msat none (p_nn_close P o) w (fun _ w' =>
      wle w w' /\ w_err w' = w_err w /\
      forall x, cnt x (w_live w) = cnt x (nn_blk V o) + cnt x (w_live w'));
  pk_rows : forall w q c, query_list n q -> query_list n c ->
    Msat none (p_rows P ds q c) w (fun r w' =>
      peffect w w' [] /\
      match r with
      | None => True
      | Some d => d = concat ((fun x => D x <$> il_list c) <$> il_list q)
      end);
  pk_matrix : forall w q, query_list n q -> 1 < q.1 ->
    Msat none (p_matrix P ds q) w (fun r w' =>
      peffect w w' [] /\
      match r with
      | None => True
      | Some d => d = (fun xy => D xy.1 xy.2) <$> pairs (il_list q)
      end);
  pk_mx_init : forall w s, search_set n s ->
    Msat none (p_mx_init P ds s) w (fun r w' =>
      match r with
      | None => peffect w w' []
      | Some o => peffect w w' (mx_blk V o) /\ mx_good V o /\ mx_set V o = il_list s
      end);
  pk_mx_get : forall w o q, mx_good V o -> query_list n q ->
    (forall x, cnt x (mx_blk V o) <= cnt x (w_live w)) ->
    Msat none (p_mx_get P o q) w (fun r w' =>
      peffect w w' [] /\
      match r with
      | None => True
      | Some (is, d) => far_ok G D (mx_set V o) (il_list q) is d
      end);
  pk_mx_close : forall w o, mx_good V o -> (forall x, cnt x (mx_blk V o) <= cnt x (w_live w)) ->
    Msat none (p_mx_close P o) w (fun _ w' =>
      wle w w' /\ w_err w' = w_err w /\
      forall x, cnt x (w_live w) = cnt x (mx_blk V o) + cnt x (w_live w'))
}.
