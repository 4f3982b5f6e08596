(** What the project's tests record about scc_sc_clustering, computed by the
    model: the error codes of tests/test_nng_clustering.c, and that
    scc_check_clustering accepts the clusterings. The labels expected by that
    file are commented out there. As in RepoTests.v this is evidence that the
    model is the program, not part of any claim. Of the larger runs every sixteenth
    is here, and the call with 4294967295 types is left out. *)
From stdpp Require Import prelude list.
From Coq Require Import NArith ZArith.
From Verif Require Import Base World Mem Float Spi Dist Options Arrays Digraph Seeds Util NngClustering ClusSpec ScClaims DistProof Example1 FailClaims HierClaims RepoTests.

Definition err1_primary_data_points : list nat :=
  [0; 1; 2; 3; 4; 5; 7; 7; 8; 9; 20; 21; 22; 23; 24; 25; 26; 27; 28; 29;
   40; 41; 42; 43; 44; 45; 46; 47; 48; 49; 60; 61; 62; 63; 64; 65; 66; 67; 68; 69;
   80; 81; 82; 83; 84; 85; 86; 87; 88; 89].
Definition err2_primary_data_points : list nat :=
  [0; 1; 2; 3; 4; 5; 6; 7; 8; 9; 21; 20; 22; 23; 24; 25; 26; 27; 28; 29;
   40; 41; 42; 43; 44; 45; 46; 47; 48; 49; 60; 61; 62; 63; 64; 65; 66; 67; 68; 69;
   80; 81; 82; 83; 84; 85; 86; 87; 88; 89].
Definition primary_data_points : list nat :=
  [0; 1; 2; 3; 4; 5; 6; 7; 8; 9; 20; 21; 22; 23; 24; 25; 26; 27; 28; 29;
   40; 41; 42; 43; 44; 45; 46; 47; 48; 49; 60; 61; 62; 63; 64; 65; 66; 67; 68; 69;
   80; 81; 82; 83; 84; 85; 86; 87; 88; 89].
Definition type_constraints_four : list nat :=
  [1; 0; 3].
Definition type_constraints_one : list nat :=
  [0; 1; 0].
Definition type_constraints_three : list nat :=
  [1; 1; 1].
Definition type_constraints_three_mod1 : list nat :=
  [35; 1; 1].
Definition type_constraints_three_mod2 : list nat :=
  [2; 2; 2].
Definition type_labels_three : list nat :=
  [1; 0; 2; 0; 0; 2; 0; 0; 2; 0; 2; 1; 1; 2; 2; 2; 2; 0; 0; 2;
   0; 0; 2; 0; 0; 0; 2; 0; 2; 1; 2; 1; 2; 1; 1; 1; 1; 0; 1; 2;
   1; 2; 0; 1; 1; 1; 0; 0; 2; 0; 0; 2; 1; 2; 1; 2; 2; 2; 1; 1;
   0; 0; 1; 2; 1; 2; 1; 0; 0; 1; 2; 2; 1; 0; 2; 2; 1; 1; 2; 1;
   1; 0; 2; 0; 0; 1; 1; 0; 1; 1; 1; 2; 2; 0; 2; 0; 2; 0; 0; 1].

(** tests/test_nng_clustering.c 51-98. The last constructor of each enumeration
    stands for a number that is none of the library's constants; the [bool] after
    an unassigned method says whether the test adds 100 to ask for an estimated
    radius. *)
Definition translate (size nt : nat) (tc : option (list nat)) (ltl : nat) (tl : option (list nat)) (sm : seed_method)
    (um : unassigned_method * bool) (rc : bool) (r : double) (lp : nat) (pd : option (list nat))
    (um2 : unassigned_method * bool) (rc2 : bool) (r2 : double) (b : nat) : options :=
  {| o_version := o_version default_options; o_size := size; o_num_types := nt; o_tcons := tc; o_len_tlabels := ltl; o_tlabels := tl; o_seed := sm;
     o_len_prim := lp; o_prim := pd; o_pum := um.1; o_sum := um2.1;
     o_srad := (if rc then RM_USE_SUPPLIED else RM_NO_RADIUS); o_srad_val := r;
     o_prad := (if um.2 then RM_USE_ESTIMATED else RM_USE_SEED_RADIUS); o_prad_val := d_zero;
     o_2rad := (if um2.2 then RM_USE_ESTIMATED else if rc2 then RM_USE_SUPPLIED else RM_NO_RADIUS); o_2rad_val := r2; o_batch := b |}.

(** The clustering object with the caller's label array, unset. *)
Definition ext_clustering : clustering := Clu clustering_version 100 0 (Some (Arr 0 (replicate 100 None))) true.
Definition code (ds : dataset) (o : options) (c : clustering) (e : ecode) : bool :=
  match sc_clustering default_config builtin (Some ds) (Some o) (Some c) (world_old (fun _ => false)) with
  | Ok ((ec, _), _) => if decide (ec = e) then true else false
  | Bad _ => false
  end.
(** The call succeeds, keeps the caller's array, and scc_check_clustering with
    the same size and type constraints says the clustering satisfies them. *)
Definition fine (size nt : nat) (tc : option (list nat)) (ltl : nat) (tl : option (list nat)) (o : options) : bool :=
  match sc_clustering default_config builtin (Some large) (Some o) (Some ext_clustering) (world_old (fun _ => false)) with
  | Ok ((ER_OK, Some c), w) =>
      bool_decide (c_n c = 100) && c_ext c && bool_decide ((a_blk <$> c_label c) = Some 0) &&
      match check_clustering default_config (Some c)
              (Some (translate size nt tc ltl tl SM_LEXICAL (UM_ANY_NEIGHBOR, false) false d_zero 0 None (UM_IGNORE, false) false d_zero 0)) true w with
      | Ok ((ER_OK, Some true), _) => true
      | _ => false
      end
  | _ => false
  end.

(** Line 143. *)
Definition code_143 : unit := ltac:(holds (code large (translate 3 0 None 0 None SM_LEXICAL (UM_IGNORE, false) false (SpecFloat.S754_zero false) 0 None (UM_IGNORE, false) false (SpecFloat.S754_zero false) 0) ext_clustering ER_OK)).
(** Line 152. *)
Definition code_152 : unit := ltac:(holds (code large (translate 3 1 None 0 None SM_LEXICAL (UM_IGNORE, false) false (SpecFloat.S754_zero false) 0 None (UM_IGNORE, false) false (SpecFloat.S754_zero false) 0) ext_clustering ER_OK)).
(** Line 160; the clustering object has been freed, so the pointer is NULL. *)
Example code_160 : exists w, sc_clustering default_config builtin (Some large) (Some (translate 3 0 None 0 None SM_LEXICAL (UM_IGNORE, false) false (SpecFloat.S754_zero false) 0 None (UM_IGNORE, false) false (SpecFloat.S754_zero false) 0)) None world0 = Ok ((ER_INVALID_INPUT, None), w).
Proof. eexists. vm_compute. reflexivity. Qed.
(** Line 168. *)
Definition code_168 : unit := ltac:(holds (code small (translate 3 0 None 0 None SM_LEXICAL (UM_IGNORE, false) false (SpecFloat.S754_zero false) 0 None (UM_IGNORE, false) false (SpecFloat.S754_zero false) 0) ext_clustering ER_INVALID_INPUT)).
(** Line 177. *)
Definition code_177 : unit := ltac:(holds (code large (translate 1 0 None 0 None SM_LEXICAL (UM_IGNORE, false) false (SpecFloat.S754_zero false) 0 None (UM_IGNORE, false) false (SpecFloat.S754_zero false) 0) ext_clustering ER_INVALID_INPUT)).
(** Line 186. *)
Definition code_186 : unit := ltac:(holds (code large (translate 101 0 None 0 None SM_LEXICAL (UM_IGNORE, false) false (SpecFloat.S754_zero false) 0 None (UM_IGNORE, false) false (SpecFloat.S754_zero false) 0) ext_clustering ER_NO_SOLUTION)).
(** Line 196. *)
Definition code_196 : unit := ltac:(holds (code large (translate 3 0 (Some (replicate 5 0)) 0 None SM_LEXICAL (UM_IGNORE, false) false (SpecFloat.S754_zero false) 0 None (UM_IGNORE, false) false (SpecFloat.S754_zero false) 0) ext_clustering ER_INVALID_INPUT)).
(** Line 205. *)
Definition code_205 : unit := ltac:(holds (code large (translate 3 0 None 10 None SM_LEXICAL (UM_IGNORE, false) false (SpecFloat.S754_zero false) 0 None (UM_IGNORE, false) false (SpecFloat.S754_zero false) 0) ext_clustering ER_INVALID_INPUT)).
(** Line 215. *)
Definition code_215 : unit := ltac:(holds (code large (translate 3 0 None 0 (Some (replicate 5 0)) SM_LEXICAL (UM_IGNORE, false) false (SpecFloat.S754_zero false) 0 None (UM_IGNORE, false) false (SpecFloat.S754_zero false) 0) ext_clustering ER_INVALID_INPUT)).
(** Line 224. *)
Definition code_224 : unit := ltac:(holds (code large (translate 3 0 None 0 None SM_OTHER (UM_IGNORE, false) false (SpecFloat.S754_zero false) 0 None (UM_IGNORE, false) false (SpecFloat.S754_zero false) 0) ext_clustering ER_INVALID_INPUT)).
(** Line 233. *)
Definition code_233 : unit := ltac:(holds (code large (translate 3 0 None 0 None SM_LEXICAL (UM_OTHER, false) false (SpecFloat.S754_zero false) 0 None (UM_IGNORE, false) false (SpecFloat.S754_zero false) 0) ext_clustering ER_INVALID_INPUT)).
(** Line 242. *)
Definition code_242 : unit := ltac:(holds (code large (translate 3 0 None 0 None SM_LEXICAL (UM_IGNORE, false) true (SpecFloat.S754_zero false) 0 None (UM_IGNORE, false) false (SpecFloat.S754_zero false) 0) ext_clustering ER_INVALID_INPUT)).
(** Line 251. *)
Definition code_251 : unit := ltac:(holds (code large (translate 3 0 None 0 None SM_LEXICAL (UM_IGNORE, false) false (SpecFloat.S754_zero false) 50 (Some primary_data_points) (UM_IGNORE, false) false (SpecFloat.S754_zero false) 0) ext_clustering ER_OK)).
(** Line 260. *)
Definition code_260 : unit := ltac:(holds (code large (translate 3 0 None 0 None SM_LEXICAL (UM_IGNORE, false) false (SpecFloat.S754_zero false) 50 (Some err1_primary_data_points) (UM_IGNORE, false) false (SpecFloat.S754_zero false) 0) ext_clustering ER_INVALID_INPUT)).
(** Line 269. *)
Definition code_269 : unit := ltac:(holds (code large (translate 3 0 None 0 None SM_LEXICAL (UM_IGNORE, false) false (SpecFloat.S754_zero false) 50 (Some err2_primary_data_points) (UM_IGNORE, false) false (SpecFloat.S754_zero false) 0) ext_clustering ER_INVALID_INPUT)).
(** Line 278. *)
Definition code_278 : unit := ltac:(holds (code large (translate 3 0 None 0 None SM_LEXICAL (UM_IGNORE, false) false (SpecFloat.S754_zero false) 50 (Some primary_data_points) (UM_OTHER, false) false (SpecFloat.S754_zero false) 0) ext_clustering ER_INVALID_INPUT)).
(** Line 287. *)
Definition code_287 : unit := ltac:(holds (code large (translate 3 0 None 0 None SM_LEXICAL (UM_IGNORE, false) false (SpecFloat.S754_zero false) 50 (Some primary_data_points) (UM_ANY_NEIGHBOR, false) false (SpecFloat.S754_zero false) 0) ext_clustering ER_INVALID_INPUT)).
(** Line 296. *)
Definition code_296 : unit := ltac:(holds (code large (translate 3 0 None 0 None SM_LEXICAL (UM_IGNORE, false) false (SpecFloat.S754_zero false) 50 (Some primary_data_points) (UM_IGNORE, false) true (SpecFloat.S754_zero false) 0) ext_clustering ER_INVALID_INPUT)).
(** Line 305. *)
Definition code_305 : unit := ltac:(holds (code large (translate 3 0 None 0 None SM_LEXICAL (UM_IGNORE, false) false (SpecFloat.S754_zero false) 0 None (UM_IGNORE, false) false (SpecFloat.S754_zero false) 0) (old_clustering 10 (replicate 100 0%Z)) ER_NOT_IMPLEMENTED)).
(** Line 314. *)
Definition code_314 : unit := ltac:(holds (code large (translate 3 0 None 0 None SM_LEXICAL (UM_IGNORE, false) true (SpecFloat.S754_finite false 4503599627370496 (-52)) 0 None (UM_IGNORE, false) false (SpecFloat.S754_zero false) 0) (new_clustering 100) ER_NO_SOLUTION)).
(** Line 327. *)
Definition fine_327 : unit := ltac:(holds (fine 3 0 None 0 None
  (translate 3 0 None 0 None SM_LEXICAL (UM_IGNORE, false) false (SpecFloat.S754_zero false) 0 None (UM_IGNORE, false) false (SpecFloat.S754_zero false) 0))).
(** Line 744. *)
Definition fine_744 : unit := ltac:(holds (fine 3 0 None 0 None
  (translate 3 0 None 0 None SM_EXCLUSION_UPDATING (UM_CLOSEST_ASSIGNED, false) false (SpecFloat.S754_zero false) 0 None (UM_IGNORE, false) false (SpecFloat.S754_zero false) 0))).
(** Line 1162. *)
Definition fine_1162 : unit := ltac:(holds (fine 3 0 None 0 None
  (translate 3 0 None 0 None SM_EXCLUSION_ORDER (UM_IGNORE, false) true (SpecFloat.S754_finite false 5629499534213120 (-48)) 0 None (UM_IGNORE, false) false (SpecFloat.S754_zero false) 0))).
(** Line 1580. *)
Definition fine_1580 : unit := ltac:(holds (fine 3 0 None 0 None
  (translate 3 0 None 0 None SM_EXCLUSION_UPDATING (UM_CLOSEST_SEED, false) true (SpecFloat.S754_finite false 5629499534213120 (-48)) 0 None (UM_IGNORE, false) false (SpecFloat.S754_zero false) 0))).
(** Line 1998. *)
Definition fine_1998 : unit := ltac:(holds (fine 3 0 None 0 None
  (translate 3 0 None 0 None SM_EXCLUSION_ORDER (UM_ANY_NEIGHBOR, false) false (SpecFloat.S754_zero false) 50 (Some primary_data_points) (UM_CLOSEST_ASSIGNED, false) false (SpecFloat.S754_zero false) 0))).
(** Line 2416. *)
Definition fine_2416 : unit := ltac:(holds (fine 3 0 None 0 None
  (translate 3 0 None 0 None SM_EXCLUSION_UPDATING (UM_CLOSEST_SEED, true) false (SpecFloat.S754_zero false) 50 (Some primary_data_points) (UM_CLOSEST_ASSIGNED, false) false (SpecFloat.S754_zero false) 0))).
(** Line 3733. *)
Definition code_3733 : unit := ltac:(holds (code large (translate 3 3 (Some type_constraints_three) 100 (Some type_labels_three) SM_LEXICAL (UM_IGNORE, false) false (SpecFloat.S754_zero false) 0 None (UM_IGNORE, false) false (SpecFloat.S754_zero false) 0) ext_clustering ER_OK)).
(** Line 3741; the clustering object has been freed, so the pointer is NULL. *)
Example code_3741 : exists w, sc_clustering default_config builtin (Some large) (Some (translate 3 3 (Some type_constraints_three) 100 (Some type_labels_three) SM_LEXICAL (UM_IGNORE, false) false (SpecFloat.S754_zero false) 0 None (UM_IGNORE, false) false (SpecFloat.S754_zero false) 0)) None world0 = Ok ((ER_INVALID_INPUT, None), w).
Proof. eexists. vm_compute. reflexivity. Qed.
(** Line 3749. *)
Definition code_3749 : unit := ltac:(holds (code small (translate 3 3 (Some type_constraints_three) 100 (Some type_labels_three) SM_LEXICAL (UM_IGNORE, false) false (SpecFloat.S754_zero false) 0 None (UM_IGNORE, false) false (SpecFloat.S754_zero false) 0) ext_clustering ER_INVALID_INPUT)).
(** Line 3758. *)
Definition code_3758 : unit := ltac:(holds (code large (translate 1 3 (Some type_constraints_three) 100 (Some type_labels_three) SM_LEXICAL (UM_IGNORE, false) false (SpecFloat.S754_zero false) 0 None (UM_IGNORE, false) false (SpecFloat.S754_zero false) 0) ext_clustering ER_INVALID_INPUT)).
(** Line 3767. *)
Definition code_3767 : unit := ltac:(holds (code large (translate 101 3 (Some type_constraints_three) 100 (Some type_labels_three) SM_LEXICAL (UM_IGNORE, false) false (SpecFloat.S754_zero false) 0 None (UM_IGNORE, false) false (SpecFloat.S754_zero false) 0) ext_clustering ER_NO_SOLUTION)).
(** Line 3785. *)
Definition code_3785 : unit := ltac:(holds (code large (translate 3 3 None 100 (Some type_labels_three) SM_LEXICAL (UM_IGNORE, false) false (SpecFloat.S754_zero false) 0 None (UM_IGNORE, false) false (SpecFloat.S754_zero false) 0) ext_clustering ER_INVALID_INPUT)).
(** Line 3794. *)
Definition code_3794 : unit := ltac:(holds (code large (translate 3 3 (Some type_constraints_three) 50 (Some type_labels_three) SM_LEXICAL (UM_IGNORE, false) false (SpecFloat.S754_zero false) 0 None (UM_IGNORE, false) false (SpecFloat.S754_zero false) 0) ext_clustering ER_INVALID_INPUT)).
(** Line 3803. *)
Definition code_3803 : unit := ltac:(holds (code large (translate 3 3 (Some type_constraints_three) 100 None SM_LEXICAL (UM_IGNORE, false) false (SpecFloat.S754_zero false) 0 None (UM_IGNORE, false) false (SpecFloat.S754_zero false) 0) ext_clustering ER_INVALID_INPUT)).
(** Line 3812. *)
Definition code_3812 : unit := ltac:(holds (code large (translate 3 3 (Some type_constraints_three) 100 (Some type_labels_three) SM_OTHER (UM_IGNORE, false) false (SpecFloat.S754_zero false) 0 None (UM_IGNORE, false) false (SpecFloat.S754_zero false) 0) ext_clustering ER_INVALID_INPUT)).
(** Line 3821. *)
Definition code_3821 : unit := ltac:(holds (code large (translate 3 3 (Some type_constraints_three) 100 (Some type_labels_three) SM_LEXICAL (UM_OTHER, false) false (SpecFloat.S754_zero false) 0 None (UM_IGNORE, false) false (SpecFloat.S754_zero false) 0) ext_clustering ER_INVALID_INPUT)).
(** Line 3830. *)
Definition code_3830 : unit := ltac:(holds (code large (translate 3 3 (Some type_constraints_three) 100 (Some type_labels_three) SM_LEXICAL (UM_IGNORE, false) true (SpecFloat.S754_zero false) 0 None (UM_IGNORE, false) false (SpecFloat.S754_zero false) 0) ext_clustering ER_INVALID_INPUT)).
(** Line 3839. *)
Definition code_3839 : unit := ltac:(holds (code large (translate 3 3 (Some type_constraints_three) 100 (Some type_labels_three) SM_LEXICAL (UM_IGNORE, false) false (SpecFloat.S754_zero false) 50 (Some primary_data_points) (UM_OTHER, false) false (SpecFloat.S754_zero false) 0) ext_clustering ER_INVALID_INPUT)).
(** Line 3848. *)
Definition code_3848 : unit := ltac:(holds (code large (translate 3 3 (Some type_constraints_three) 100 (Some type_labels_three) SM_LEXICAL (UM_IGNORE, false) false (SpecFloat.S754_zero false) 50 (Some primary_data_points) (UM_ANY_NEIGHBOR, false) false (SpecFloat.S754_zero false) 0) ext_clustering ER_INVALID_INPUT)).
(** Line 3857. *)
Definition code_3857 : unit := ltac:(holds (code large (translate 3 3 (Some type_constraints_three) 100 (Some type_labels_three) SM_LEXICAL (UM_IGNORE, false) false (SpecFloat.S754_zero false) 50 (Some primary_data_points) (UM_IGNORE, false) true (SpecFloat.S754_zero false) 0) ext_clustering ER_INVALID_INPUT)).
(** Line 3866. *)
Definition code_3866 : unit := ltac:(holds (code large (translate 3 3 (Some type_constraints_three) 100 (Some type_labels_three) SM_LEXICAL (UM_IGNORE, false) false (SpecFloat.S754_zero false) 0 None (UM_IGNORE, false) false (SpecFloat.S754_zero false) 0) (old_clustering 10 (replicate 100 0%Z)) ER_NOT_IMPLEMENTED)).
(** Line 3876. *)
Definition code_3876 : unit := ltac:(holds (code large (translate 3 3 (Some type_constraints_three_mod1) 100 (Some type_labels_three) SM_LEXICAL (UM_IGNORE, false) false (SpecFloat.S754_zero false) 0 None (UM_IGNORE, false) false (SpecFloat.S754_zero false) 0) ext_clustering ER_NO_SOLUTION)).
(** Line 3886. *)
Definition code_3886 : unit := ltac:(holds (code large (translate 3 3 (Some type_constraints_three_mod2) 100 (Some type_labels_three) SM_LEXICAL (UM_IGNORE, false) false (SpecFloat.S754_zero false) 0 None (UM_IGNORE, false) false (SpecFloat.S754_zero false) 0) ext_clustering ER_INVALID_INPUT)).
(** Line 3895. *)
Definition code_3895 : unit := ltac:(holds (code large (translate 3 3 (Some type_constraints_three) 100 (Some type_labels_three) SM_LEXICAL (UM_IGNORE, false) true (SpecFloat.S754_finite false 5629499534213120 (-49)) 0 None (UM_IGNORE, false) false (SpecFloat.S754_zero false) 0) ext_clustering ER_OK)).
(** Line 3904. *)
Definition code_3904 : unit := ltac:(holds (code large (translate 3 3 (Some type_constraints_three) 100 (Some type_labels_three) SM_LEXICAL (UM_IGNORE, false) true (SpecFloat.S754_finite false 4503599627370496 (-52)) 0 None (UM_IGNORE, false) false (SpecFloat.S754_zero false) 0) ext_clustering ER_NO_SOLUTION)).
(** Line 3913. *)
Definition code_3913 : unit := ltac:(holds (code large (translate 10 3 (Some type_constraints_three) 100 (Some type_labels_three) SM_LEXICAL (UM_IGNORE, false) true (SpecFloat.S754_finite false 5629499534213120 (-49)) 0 None (UM_IGNORE, false) false (SpecFloat.S754_zero false) 0) ext_clustering ER_NO_SOLUTION)).
(** Line 3922. *)
Definition code_3922 : unit := ltac:(holds (code large (translate 10 3 (Some type_constraints_three) 100 (Some type_labels_three) SM_LEXICAL (UM_IGNORE, false) true (SpecFloat.S754_finite false 8444249301319680 (-48)) 0 None (UM_IGNORE, false) false (SpecFloat.S754_zero false) 0) ext_clustering ER_OK)).
(** Line 4111. *)
Definition fine_4111 : unit := ltac:(holds (fine 5 3 (Some type_constraints_three) 100 (Some type_labels_three)
  (translate 5 3 (Some type_constraints_three) 100 (Some type_labels_three) SM_LEXICAL (UM_IGNORE, false) true (SpecFloat.S754_finite false 5629499534213120 (-48)) 0 None (UM_IGNORE, false) false (SpecFloat.S754_zero false) 0))).
(** Line 4463. *)
Definition fine_4463 : unit := ltac:(holds (fine 2 3 (Some type_constraints_one) 100 (Some type_labels_three)
  (translate 2 3 (Some type_constraints_one) 100 (Some type_labels_three) SM_INWARDS_ORDER (UM_CLOSEST_ASSIGNED, false) true (SpecFloat.S754_finite false 5629499534213120 (-48)) 0 None (UM_IGNORE, false) false (SpecFloat.S754_zero false) 0))).
(** Line 4815. *)
Definition fine_4815 : unit := ltac:(holds (fine 4 3 (Some type_constraints_four) 100 (Some type_labels_three)
  (translate 4 3 (Some type_constraints_four) 100 (Some type_labels_three) SM_INWARDS_UPDATING (UM_ANY_NEIGHBOR, false) true (SpecFloat.S754_finite false 5629499534213120 (-48)) 50 (Some primary_data_points) (UM_IGNORE, false) false (SpecFloat.S754_zero false) 0))).
(** Line 5167. *)
Definition fine_5167 : unit := ltac:(holds (fine 3 3 (Some type_constraints_three) 100 (Some type_labels_three)
  (translate 3 3 (Some type_constraints_three) 100 (Some type_labels_three) SM_EXCLUSION_ORDER (UM_CLOSEST_SEED, true) false (SpecFloat.S754_zero false) 50 (Some primary_data_points) (UM_CLOSEST_SEED, false) true (SpecFloat.S754_finite false 5629499534213120 (-48)) 0))).
(** Line 5519. *)
Definition fine_5519 : unit := ltac:(holds (fine 3 3 (Some type_constraints_one) 100 (Some type_labels_three)
  (translate 3 3 (Some type_constraints_one) 100 (Some type_labels_three) SM_INWARDS_UPDATING (UM_CLOSEST_SEED, true) false (SpecFloat.S754_zero false) 50 (Some primary_data_points) (UM_CLOSEST_SEED, true) false (SpecFloat.S754_zero false) 0))).
