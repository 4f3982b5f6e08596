(** Effects of the model: memory allocation, the latest error, the provider's
    private state; build configuration. *)

From Coq Require Import Strings.String.
From Coq Require Import NArith ZArith.
From stdpp Require Import prelude list.
From Verif Require Import Base.
Open Scope string_scope.
Open Scope list_scope.
Open Scope nat_scope.

(** ** Build configuration *)

(** Integer types chosen at configure time: configure 213-330,
    templates/scclust_types.h 38-60, templates/scclust.h 112-160.
    [fast16_max] is the platform's UINT_FAST16_MAX. [stable_nng] and
    [stable_seeds] tell whether the macros SCC_STABLE_NNG and SCC_STABLE_FINDSEED
    are defined. *)
Record config := Config {
  pi_max : N;       (* ISCC_POINTINDEX_MAX *)
  ai_max : N;       (* ISCC_ARCINDEX_MAX *)
  cl_max : N;       (* SCC_CLABEL_MAX *)
  cl_na : Z;        (* SCC_CLABEL_NA *)
  fast16_max : N;   (* UINT_FAST16_MAX *)
  stable_nng : bool;    (* SCC_STABLE_NNG *)
  stable_seeds : bool   (* SCC_STABLE_FINDSEED *)
}.

Definition u32max : N := 4294967295.
Definition u64max : N := 18446744073709551615.
Definition i32max : N := 2147483647.

(** The configurations the configure script can produce (configure 213-330). *)
Definition config_ok (c : config) : Prop :=
  (pi_max c = u32max \/ pi_max c = u64max \/ pi_max c = i32max) /\
  (ai_max c = u32max \/ ai_max c = u64max) /\
  ((cl_max c = u32max /\ cl_na c = Z.of_N u32max) \/
   (cl_max c = u64max /\ cl_na c = Z.of_N u64max) \/
   (cl_max c = i32max /\ (cl_na c = Z.of_N i32max \/ (- 2147483648 <= cl_na c < 0)%Z))) /\
  (65535 <= fast16_max c)%N.

(** The default configuration. *)
Definition default_config : config := Config u32max u32max u32max (Z.of_N u32max) u64max false false.

Lemma default_config_ok : config_ok default_config.
Proof. repeat split; simpl; auto; vm_compute; congruence. Qed.

(** ** Error codes *)

(** templates/scclust.h 70-95. *)
Inductive ecode : Set :=
| ER_OK | ER_UNKNOWN_ERROR | ER_INVALID_INPUT | ER_NO_MEMORY | ER_NO_SOLUTION
| ER_TOO_LARGE_PROBLEM | ER_DIST_SEARCH_ERROR | ER_NOT_IMPLEMENTED.

Global Instance ecode_eq_dec : EqDecision ecode.
Proof. solve_decision. Defined.

(** Numeric value of the enumerator (templates/scclust.h 70-95). *)
Definition ecode_val (e : ecode) : nat :=
  match e with
  | ER_OK => 0 | ER_UNKNOWN_ERROR => 1 | ER_INVALID_INPUT => 2 | ER_NO_MEMORY => 3
  | ER_NO_SOLUTION => 4 | ER_TOO_LARGE_PROBLEM => 5 | ER_DIST_SEARCH_ERROR => 6
  | ER_NOT_IMPLEMENTED => 7
  end.

(** The static variables of src/error.c 32-35. *)
Record errst := ErrSt {
  e_code : ecode;
  e_msg : option string;
  e_file : string;
  e_line : Z
}.

(** Initial values (src/error.c 32-35) and iscc_reset_error (58-64). *)
Definition no_errst : errst := ErrSt ER_OK None "unknown file" (-1).

(** ** World *)

Record world := World {
  w_fail : nat -> bool;   (* oracle: does the i-th allocation request fail? *)
  w_next : nat;           (* number of allocation requests so far; next block id *)
  w_live : list nat;      (* ids of the blocks currently allocated *)
  w_err : errst;          (* latest error *)
  w_tick : nat;           (* private state of the search provider *)
  w_most : nat            (* largest number of elements asked for in an allocation request *)
}.

Definition M (A : Type) : Type := world -> R (A * world).

Definition Mret {A} (a : A) : M A := fun w => Ok (a, w).
Definition Mbind {A B} (m : M A) (k : A -> M B) : M B :=
  fun w => match m w with Ok (a, w') => k a w' | Bad u => Bad u end.
Definition Mbad {A} (u : ub) : M A := fun _ => Bad u.
(** Array computations do not touch the world. *)
Definition lift {A} (m : R A) : M A :=
  fun w => match m with Ok a => Ok (a, w) | Bad u => Bad u end.

Notation "'let*' x ':=' m 'in' k" := (Mbind m (fun x => k))
  (at level 200, x pattern, m at level 100, k at level 200, right associativity).

Definition Msat {A} (B : ub -> Prop) (m : M A) (w : world) (Q : A -> world -> Prop) : Prop :=
  Rsat B (m w) (fun '(a, w') => Q a w').

Lemma Msat_ret {A} B (a : A) w (Q : A -> world -> Prop) : Q a w -> Msat B (Mret a) w Q.
Proof. auto. Qed.

Lemma Msat_bind {A C} B (m : M A) (k : A -> M C) w Q :
  Msat B m w (fun a w' => Msat B (k a) w' Q) -> Msat B (Mbind m k) w Q.
Proof. unfold Msat, Mbind. destruct (m w) as [[a w']|]; simpl; auto. Qed.

Lemma Msat_lift {A} B (m : R A) w (Q : A -> world -> Prop) :
  Rsat B m (fun a => Q a w) -> Msat B (lift m) w Q.
Proof. unfold Msat, lift. destruct m; simpl; auto. Qed.

Lemma Msat_mono {A} B (m : M A) w (P Q : A -> world -> Prop) :
  Msat B m w P -> (forall a w', P a w' -> Q a w') -> Msat B m w Q.
Proof. unfold Msat. destruct (m w) as [[a w']|]; simpl; auto. Qed.

Lemma Msat_bind_mono {A C} B (m : M A) (k : A -> M C) w (P : A -> world -> Prop) Q :
  Msat B m w P -> (forall a w', P a w' -> Msat B (k a) w' Q) -> Msat B (Mbind m k) w Q.
Proof. unfold Msat, Mbind. destruct (m w) as [[a w']|]; simpl; auto. Qed.

Lemma Msat_inv {A} B (m : M A) w a w' (Q : A -> world -> Prop) :
  m w = Ok (a, w') -> Msat B m w Q -> Q a w'.
Proof. unfold Msat. intros ->. auto. Qed.

Lemma Msat_none {A} (m : M A) w Q : Msat none m w Q -> exists a w', m w = Ok (a, w') /\ Q a w'.
Proof. unfold Msat. destruct (m w) as [[a w']|]; simpl; [eauto | intros []]. Qed.

Lemma Msat_conj {A} B (m : M A) w (P Q : A -> world -> Prop) :
  Msat B m w P -> Msat B m w Q -> Msat B m w (fun a w' => P a w' /\ Q a w').
Proof. unfold Msat. destruct (m w) as [[a w']|]; simpl; auto. Qed.

(** ** Loops with effects *)

Definition forM {S} (n i : nat) (s : S) (f : nat -> S -> M S) : M S :=
  fun w => forR n i (s, w) (fun j '(s, w) => f j s w).

Definition loopM {S T} (n i : nat) (s : S) (f : nat -> S -> M (S + T)) : M (S + T) :=
  fun w =>
    match loopR n i (s, w) (fun j '(s, w) =>
            match f j s w with
            | Ok (inl s', w') => Ok (inl (s', w'))
            | Ok (inr t, w') => Ok (inr (t, w'))
            | Bad u => Bad u
            end) with
    | Ok (inl (s', w')) => Ok (inl s', w')
    | Ok (inr (t, w')) => Ok (inr t, w')
    | Bad u => Bad u
    end.

Lemma forM_sat {S} B (I : nat -> S -> world -> Prop) n s f w (Q : S -> world -> Prop) :
  I 0 s w ->
  (forall j s w, j < n -> I j s w -> Msat B (f j s) w (I (Datatypes.S j))) ->
  (forall s w, I n s w -> Q s w) ->
  Msat B (forM n 0 s f) w Q.
Proof.
  intros H0 Hs HQ. unfold Msat, forM. apply (forR_sat0 _ (fun j '(s, w) => I j s w)).
  - exact H0.
  - intros j [s' w'] Hj HI. by apply Hs.
  - intros [s' w']; auto.
Qed.

Lemma loopM_sat {S T} B (I : nat -> S -> world -> Prop) (E : T -> world -> Prop) n s
    (f : nat -> S -> M (S + T)) w (Q : S + T -> world -> Prop) :
  I 0 s w ->
  (forall j s w, j < n -> I j s w ->
     Msat B (f j s) w (fun r w' => match r with inl s' => I (Datatypes.S j) s' w' | inr t => E t w' end)) ->
  (forall s w, I n s w -> Q (inl s) w) ->
  (forall t w, E t w -> Q (inr t) w) ->
  Msat B (loopM n 0 s f) w Q.
Proof.
  intros H0 Hs HQ HE. unfold Msat, loopM.
  pose proof (loopR_sat B (fun j '(s, w) => I j s w) (fun '(t, w) => E t w) n 0 (s, w)
    (fun j '(s, w) => match f j s w with
            | Ok (inl s', w') => Ok (inl (s', w'))
            | Ok (inr t, w') => Ok (inr (t, w'))
            | Bad u => Bad u
            end)) as H.
  destruct (loopR n 0 (s, w) _) as [[[s' w']|[t w']]|u]; simpl in *.
  all: (feed specialize H; [exact H0 | | simpl in H; auto]);
    intros j [s1 w1] Hj HI; specialize (Hs j s1 w1 ltac:(lia) HI); unfold Msat in Hs;
    destruct (f j s1 w1) as [[[?|?] ?]|]; simpl in *; auto.
Qed.

(** ** Allocation *)

(** malloc/calloc of [n] elements: [None] is the NULL pointer. The oracle may
    refuse any request (also covering malloc(0) = NULL). The size is recorded in
    elements; that it does not wrap in bytes is C76. *)
Definition malloc (n : nat) : M (option nat) := fun w =>
  if w_fail w (w_next w)
  then Ok (None, World (w_fail w) (S (w_next w)) (w_live w) (w_err w) (w_tick w) (Nat.max (w_most w) n))
  else Ok (Some (w_next w),
           World (w_fail w) (S (w_next w)) (w_next w :: w_live w) (w_err w) (w_tick w) (Nat.max (w_most w) n)).

(** Block ids are never reused, so at most one occurrence of [b] exists. *)
Fixpoint remove_blk (b : nat) (l : list nat) : list nat :=
  match l with
  | [] => []
  | x :: l' => if decide (x = b) then l' else x :: remove_blk b l'
  end.

(** free: NULL is ignored; a block that is not live is undefined behaviour. *)
Definition free (p : option nat) : M unit := fun w =>
  match p with
  | None => Ok (tt, w)
  | Some b =>
      if decide (b ∈ w_live w)
      then Ok (tt, World (w_fail w) (w_next w) (remove_blk b (w_live w)) (w_err w) (w_tick w) (w_most w))
      else Bad BadFree
  end.

(** realloc to [n] elements, a non-zero number: on success the old block is gone and a new
    block id is used; on failure the old block stays. *)
Definition realloc (p : option nat) (n : nat) : M (option nat) := fun w =>
  match p with
  | Some b =>
      if decide (b ∈ w_live w) then
        if w_fail w (w_next w)
        then Ok (None, World (w_fail w) (S (w_next w)) (w_live w) (w_err w) (w_tick w) (Nat.max (w_most w) n))
        else Ok (Some (w_next w),
                 World (w_fail w) (S (w_next w)) (w_next w :: remove_blk b (w_live w)) (w_err w) (w_tick w) (Nat.max (w_most w) n))
      else Bad BadFree
  | None => malloc n w
  end.

(** ** Errors *)

Definition set_err (e : errst) : M unit := fun w =>
  Ok (tt, World (w_fail w) (w_next w) (w_live w) e (w_tick w) (w_most w)).

(** iscc_make_error__ (src/error.c 42-55). The macros iscc_make_error and
    iscc_make_error_msg (src/error.h 31-33) pass __FILE__ and __LINE__. *)
Definition make_error__ (ec : ecode) (msg : option string) (file : string) (line : Z) : M ecode :=
  let* _ := set_err (ErrSt ec msg file line) in Mret ec.

Definition make_error (ec : ecode) (file : string) (line : Z) : M ecode :=
  make_error__ ec None file line.

Definition make_error_msg (ec : ecode) (msg : string) (file : string) (line : Z) : M ecode :=
  make_error__ ec (Some msg) file line.

(** iscc_reset_error (src/error.c 58-64). *)
Definition reset_error : M unit := set_err no_errst.

(** ** Arrays with a block id *)

Record arr (A : Type) := Arr { a_blk : nat; a_cells : list (option A) }.
Arguments Arr {A} a_blk a_cells.
Arguments a_blk {A} a.
Arguments a_cells {A} a.

(** [malloc] of an array of [n] elements; contents indeterminate. *)
Definition malloc_arr (A : Type) (n : nat) : M (option (arr A)) :=
  let* p := malloc n in
  Mret (match p with Some b => Some (Arr b (fresh A n)) | None => None end).

(** [calloc]/[malloc]+fill: array of [n] elements equal to [x]. *)
Definition calloc_arr {A : Type} (n : nat) (x : A) : M (option (arr A)) :=
  let* p := malloc n in
  Mret (match p with Some b => Some (Arr b (replicate n (Some x))) | None => None end).

Definition free_arr {A} (p : option (arr A)) : M unit :=
  free (match p with Some a => Some (a_blk a) | None => None end).

(** Change of size by realloc to [n > 0] cells: the common prefix is kept. *)
Definition resize {A} (n : nat) (c : list (option A)) : list (option A) :=
  take n c ++ fresh A (n - length c).

Definition realloc_arr {A} (p : option (arr A)) (n : nat) : M (option (arr A)) :=
  let* q := realloc (match p with Some a => Some (a_blk a) | None => None end) n in
  Mret (match q with
        | Some b => Some (Arr b (resize n (match p with Some a => a_cells a | None => [] end)))
        | None => None
        end).

Definition aget {A} (p : option (arr A)) (i : nat) : R A :=
  match p with Some a => cget (a_cells a) i | None => Bad NullPtr end.

Definition aset {A} (p : option (arr A)) (i : nat) (x : A) : R (option (arr A)) :=
  match p with
  | Some a => let! c := cset (a_cells a) i x in Ok (Some (Arr (a_blk a) c))
  | None => Bad NullPtr
  end.
