(** Clustering objects, cluster options and their validation. *)

From Coq Require Import Strings.String.
From stdpp Require Import prelude list.
From Coq Require Import NArith ZArith.
From Verif Require Import Base World Float.
Open Scope string_scope. Open Scope list_scope. Open Scope nat_scope.

(** ** struct scc_Clustering (src/clustering_struct.h 42-66) *)

Record clustering := Clu {
  c_version : Z;
  c_n : nat;                       (* num_data_points *)
  c_k : nat;                       (* num_clusters *)
  c_label : option (arr Z);        (* cluster_label; None is NULL *)
  c_ext : bool                     (* external_labels *)
}.

(** ISCC_CLUSTERING_STRUCT_VERSION (src/clustering_struct.h 70). *)
Definition clustering_version : Z := 722587001.

Definition set_label (cl : clustering) (l : option (arr Z)) : clustering :=
  Clu (c_version cl) (c_n cl) (c_k cl) l (c_ext cl).
Definition set_k (cl : clustering) (k : nat) : clustering :=
  Clu (c_version cl) (c_n cl) k (c_label cl) (c_ext cl).

(** scc_is_initialized_clustering (src/scclust.c 165-175); [None] is NULL. *)
Definition is_initialized_clustering (cfg : config) (cl : option clustering) : bool :=
  match cl with
  | None => false
  | Some c =>
      if decide (c_version c <> clustering_version) then false
      else if decide (c_n c = 0) then false
      else if (pi_max cfg <? N.of_nat (c_n c))%N then false
      else if (cl_max cfg <? N.of_nat (c_k c))%N then false
      else match c_label c with
           | None => if decide (0 < c_k c) then false else true
           | Some _ => true
           end
  end.

(** ** struct scc_ClusterOptions (templates/scclust.h) *)

(** Enumerations; the last constructor stands for every value that is not an
    enumerator. *)
Inductive seed_method : Set :=
| SM_LEXICAL | SM_BATCHES | SM_INWARDS_ORDER | SM_INWARDS_UPDATING
| SM_EXCLUSION_ORDER | SM_EXCLUSION_UPDATING | SM_OTHER.
Inductive unassigned_method : Set :=
| UM_IGNORE | UM_ANY_NEIGHBOR | UM_CLOSEST_ASSIGNED | UM_CLOSEST_SEED | UM_OTHER.
Inductive radius_method : Set :=
| RM_NO_RADIUS | RM_USE_SUPPLIED | RM_USE_SEED_RADIUS | RM_USE_ESTIMATED | RM_OTHER.

Global Instance seed_method_eq_dec : EqDecision seed_method.
Proof. solve_decision. Defined.
Global Instance unassigned_method_eq_dec : EqDecision unassigned_method.
Proof. solve_decision. Defined.
Global Instance radius_method_eq_dec : EqDecision radius_method.
Proof. solve_decision. Defined.

Record options := Options {
  o_version : Z;
  o_size : nat;                        (* uint32_t size_constraint *)
  o_num_types : nat;                   (* uint32_t num_types *)
  o_tcons : option (list nat);         (* type_constraints *)
  o_len_tlabels : nat;                 (* len_type_labels *)
  o_tlabels : option (list nat);       (* type_labels *)
  o_seed : seed_method;
  o_len_prim : nat;                    (* len_primary_data_points *)
  o_prim : option (list nat);          (* primary_data_points *)
  o_pum : unassigned_method;           (* primary_unassigned_method *)
  o_sum : unassigned_method;           (* secondary_unassigned_method *)
  o_srad : radius_method;              (* seed_radius *)
  o_srad_val : double;                 (* seed_supplied_radius *)
  o_prad : radius_method;
  o_prad_val : double;
  o_2rad : radius_method;              (* secondary_radius *)
  o_2rad_val : double;
  o_batch : nat                        (* uint32_t batch_size *)
}.

(** ISCC_OPTIONS_STRUCT_VERSION (src/utilities.c 46). *)
Definition options_version : Z := 722678001.

(** scc_get_default_options (src/utilities.c 53-75). *)
Definition default_options : options := {|
  o_version := options_version;
  o_size := 0;
  o_num_types := 0;
  o_tcons := None;
  o_len_tlabels := 0;
  o_tlabels := None;
  o_seed := SM_LEXICAL;
  o_len_prim := 0;
  o_prim := None;
  o_pum := UM_ANY_NEIGHBOR;
  o_sum := UM_IGNORE;
  o_srad := RM_NO_RADIUS;
  o_srad_val := d_zero;
  o_prad := RM_USE_SEED_RADIUS;
  o_prad_val := d_zero;
  o_2rad := RM_USE_SEED_RADIUS;
  o_2rad_val := d_zero;
  o_batch := 0
|}.

(** The loop over primary_data_points in iscc_check_cluster_options
    (src/utilities.c 380-386): is some element not larger than its
    predecessor? *)
Definition prim_unsorted (len : nat) (p : list nat) : R bool :=
  let! r := loopR (T := bool) (len - 1) 1 tt (fun i _ =>
    let! a := lget p (i - 1) in
    let! b := lget p i in
    if decide (b <= a) then Ok (inr true) else Ok (inl tt)) in
  match r with inr b => Ok b | inl _ => Ok false end.

(** iscc_check_cluster_options (src/utilities.c 330-446). ISCC_TYPELABEL_MAX
    and UINT16_MAX are both 65535. *)
Definition check_cluster_options (opt : option options) (n : nat) : M ecode :=
  let err ec msg line := make_error_msg ec msg "src/utilities.c" line in
  match opt with
  | None => Mbad NullPtr
  | Some o =>
    if decide (o_version o <> options_version) then
      err ER_INVALID_INPUT "Incompatible scc_ClusterOptions version." 334%Z
    else if decide (o_size o < 2) then
      err ER_INVALID_INPUT "Size constraint must be 2 or greater." 337%Z
    else if decide (n < o_size o) then
      err ER_NO_SOLUTION "Fewer data points than size constraint." 340%Z
    else
    let* r :=
      (if decide (o_num_types o < 2) then
         if decide (is_Some (o_tcons o)) then
           let* e := err ER_INVALID_INPUT "Invalid type constraints." 345%Z in Mret (Some e)
         else if decide (o_len_tlabels o <> 0) then
           let* e := err ER_INVALID_INPUT "Invalid type labels." 348%Z in Mret (Some e)
         else if decide (is_Some (o_tlabels o)) then
           let* e := err ER_INVALID_INPUT "Invalid type labels." 351%Z in Mret (Some e)
         else Mret None
       else
         if (65535 <? N.of_nat (o_num_types o))%N then
           let* e := err ER_TOO_LARGE_PROBLEM "Too many data point types." 355%Z in Mret (Some e)
         else if decide (o_tcons o = None) then
           let* e := err ER_INVALID_INPUT "Invalid type constraints." 361%Z in Mret (Some e)
         else if decide (o_len_tlabels o < n) then
           let* e := err ER_INVALID_INPUT "Invalid type labels." 364%Z in Mret (Some e)
         else if decide (o_tlabels o = None) then
           let* e := err ER_INVALID_INPUT "Invalid type labels." 367%Z in Mret (Some e)
         else Mret None) in
    match r with
    | Some e => Mret e
    | None =>
    if decide (o_seed o = SM_OTHER) then
      err ER_INVALID_INPUT "Unknown seed method." 377%Z
    else if decide (is_Some (o_prim o) /\ o_len_prim o = 0) then
      err ER_INVALID_INPUT "Invalid primary data points." 380%Z
    else
    let* u := lift (match o_prim o with
                    | Some p => prim_unsorted (o_len_prim o) p
                    | None => Ok false end) in
    if (u : bool) then
      err ER_INVALID_INPUT "`primary_data_points` is not sorted." 385%Z
    else if decide (o_prim o = None /\ 0 < o_len_prim o) then
      err ER_INVALID_INPUT "Invalid primary data points." 390%Z
    else if decide (o_pum o = UM_OTHER) then
      err ER_INVALID_INPUT "Unknown unassigned method." 397%Z
    else if decide (o_sum o = UM_ANY_NEIGHBOR) then
      err ER_INVALID_INPUT "Invalid unassigned method." 400%Z
    else if decide (o_sum o = UM_OTHER) then
      err ER_INVALID_INPUT "Unknown unassigned method." 405%Z
    else if decide (o_srad o <> RM_NO_RADIUS /\ o_srad o <> RM_USE_SUPPLIED) then
      err ER_INVALID_INPUT "Invalid radius method." 409%Z
    else if decide (o_srad o = RM_USE_SUPPLIED /\ d_le (o_srad_val o) d_zero = true) then
      err ER_INVALID_INPUT "Invalid radius." 412%Z
    else if decide (o_prad o = RM_OTHER) then
      err ER_INVALID_INPUT "Invalid radius method." 418%Z
    else if decide (o_prad o = RM_USE_SUPPLIED /\ d_le (o_prad_val o) d_zero = true) then
      err ER_INVALID_INPUT "Invalid radius." 421%Z
    else if decide (o_2rad o = RM_OTHER) then
      err ER_INVALID_INPUT "Invalid radius method." 427%Z
    else if decide (o_2rad o = RM_USE_SUPPLIED /\ d_le (o_2rad_val o) d_zero = true) then
      err ER_INVALID_INPUT "Invalid radius." 430%Z
    else if decide (o_seed o = SM_BATCHES) then
      if decide (2 <= o_num_types o) then
        err ER_NOT_IMPLEMENTED "SCC_SM_BATCHES cannot be used with type constraints." 435%Z
      else if decide (o_sum o <> UM_IGNORE) then
        err ER_NOT_IMPLEMENTED
          "SCC_SM_BATCHES must be used with `secondary_unassigned_method = SCC_UM_IGNORE`." 438%Z
      else if decide (o_prad o <> RM_USE_SEED_RADIUS) then
        err ER_NOT_IMPLEMENTED
          "SCC_SM_BATCHES must be used with `primary_radius = SCC_RM_USE_SEED_RADIUS`." 441%Z
      else Mret ER_OK
    else Mret ER_OK
    end
  end.
