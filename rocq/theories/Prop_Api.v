(** Properties of objects, data sets, error reporting and the function table: C41-C49. *)

From Coq Require Import Strings.String Strings.Ascii.
From stdpp Require Import prelude list gmap.
From Coq Require Import NArith ZArith.
From Verif Require Import Base World Mem Float Spi Options Dist DistProof DigraphRep BatchProof ClusSpec SeedsExcl OptionsProof NngClustering ScProof ScClaims ScClaims2 Example1 FailClaims
  Hier HierClaims Obj ObjRun ObjProof ObjClaims Tidy ObjCalls ObjExample DataSet ErrMsg ErrClaims SpiTable UtilClaims Util.
Open Scope string_scope. Open Scope list_scope. Open Scope nat_scope.

(** ** C41 *)

(** [reachable]: some history of legal operations leads here from an empty heap. *)
Theorem C41_no_undefined_behaviour : forall cfg h o, reachable cfg h -> legal cfg h o -> exists r h', step cfg o h = Ok (r, h').
Proof. exact ObjClaims.claim_safe. Qed.
Print Assumptions C41_no_undefined_behaviour.
Theorem C41_nothing_left : forall cfg h, reachable cfg h -> h_obj h = ∅ -> w_live (h_w h) = [].
Proof. exact claim_nothing_left. Qed.
Print Assumptions C41_nothing_left.
Theorem C41_storage_valid : forall cfg h p, reachable cfg h -> is_Some (h_obj h !! p) ->
  ptr_initialized cfg (Some p) h = Ok (true, h) /\
  (exists n k, num_points h p = Some n /\ num_clusters h p = Some k /\ (k <> 0 -> exists l, shown h p = Some l) /\ (forall l, shown h p = Some l -> length l = n)).
Proof. exact claim_storage. Qed.
Print Assumptions C41_storage_valid.
Theorem C41_user_arrays : forall cfg h o r h' b l, reachable cfg h -> legal cfg h o -> step cfg o h = Ok (r, h') -> user_arr h b l -> o <> OUserDrop b ->
  exists l', user_arr h' b l' /\ length l' = length l /\ (~ user_writes o b -> (forall f p ob, o = ORun f p -> h_obj h !! p = Some ob -> ob_label ob <> Some b) -> l' = l).
Proof. exact claim_user_arrays. Qed.
Print Assumptions C41_user_arrays.
(** The clustering functions of the library are legal computations on objects. *)
Theorem C41_sc_clustering : forall cfg P V ds n G D, tidy_provider P -> forall o c w, call_ok cfg P V ds n G D o c -> is_initialized_clustering cfg (Some c) = true -> tidy w -> no_fail w ->
  ~ is_exclusion (o_seed o) \/ (o_prim o = None /\ o_srad o = RM_NO_RADIUS) -> good_call cfg (sc_call cfg P ds (Some o)) c w.
Proof. exact sc_good. Qed.
Print Assumptions C41_sc_clustering.
Theorem C41_hierarchical : forall cfg P V ds n G D, tidy_provider P -> forall qs log2cap k batch c w, hier_call cfg P V ds n G D qs k c -> tidy w ->
  good_call cfg (hier_run cfg P qs log2cap ds k batch) c w.
Proof. exact hier_good. Qed.
Print Assumptions C41_hierarchical.
Theorem C41_builtin : tidy_provider builtin.
Proof. exact builtin_tidy. Qed.
Print Assumptions C41_builtin.
Example ex_C41 : history (world_fail 3) failing_ops
  [RUser 0; RNew ER_OK (Some (Some 1)); RNew ER_INVALID_INPUT (Some None); RNew ER_INVALID_INPUT (Some None);
   RNew ER_TOO_LARGE_PROBLEM (Some None); RNew ER_INVALID_INPUT (Some None); RNew ER_INVALID_INPUT None; RNew ER_NO_MEMORY (Some None); RInfo ER_INVALID_INPUT None None; RErr ER_INVALID_INPUT; RDone] []
  0 (Some (Some <$> [0; 0; 1; 1]%Z)).
Proof. exact failing. Qed.

(** ** C42 *)

Theorem C42_copy_equal : forall cfg h p q r h', reachable cfg h -> legal cfg h (OCopy (Some p) true) -> step cfg (OCopy (Some p) true) h = Ok (r, h') -> r = RNew ER_OK (Some (Some q)) ->
  h_obj h !! q = None /\ (exists ob, h_obj h' !! q = Some ob /\ own_storage ob) /\
  num_points h' q = num_points h p /\ num_clusters h' q = num_clusters h p /\ (num_clusters h p <> Some 0 -> shown h' q = shown h p) /\
  (forall x, is_Some (h_obj h !! x) -> h_obj h' !! x = h_obj h !! x /\ shown h' x = shown h x).
Proof. exact claim_copy. Qed.
Print Assumptions C42_copy_equal.
(** Work on other objects and arrays does not change an object that owns its labels,
    such as a copy. *)
Theorem C42_copy_untouched : forall cfg h os h' p ob, reachable cfg h -> steps cfg h os h' -> h_obj h !! p = Some ob -> own_storage ob -> Forall (fun o => ~ works_on o p) os ->
  h_obj h' !! p = Some ob /\ shown h' p = shown h p.
Proof. exact claim_untouched. Qed.
Print Assumptions C42_copy_untouched.
(** Work on such an object does not change other objects. *)
Theorem C42_original_untouched : forall cfg h os h' p ob q oq, reachable cfg h -> steps cfg h os h' -> h_obj h !! p = Some ob -> h_obj h !! q = Some oq -> p <> q -> own_storage oq ->
  Forall (fun o => ~ works_on o p /\ (forall b, ob_label ob = Some b -> ~ user_writes o b) /\ (forall x, works_on o x -> x = q)) os ->
  h_obj h' !! p = Some ob /\ shown h' p = shown h p.
Proof. exact claim_others. Qed.
Print Assumptions C42_original_untouched.
Example ex_C42 :
  history world0 (clustering_ops ++ [X (OLabels (Some 21) 12 (Some 23)); X (OFree (Some 21)); X (OFree (Some 0)); X (OFree None)])
  [RNew ER_OK (Some (Some 0)); RNew ER_OK (Some (Some 1)); RErr ER_OK; RInfo ER_OK (Some 12) (Some 0); RErr ER_OK; RNew ER_OK (Some (Some 21)); RDone; RUser 23; RErr ER_OK; RDone; RDone; RDone] []
  23 (Some (Some <$> [0; 1; 0; 0; 1; 1; 0; 0; 1; 1; 1; 0]%Z)).
Proof. exact clustering_copy. Qed.

(** ** C43 *)

Theorem C43_labels : forall cfg h p len buf r h', reachable cfg h -> legal cfg h (OLabels p len buf) -> step cfg (OLabels p len buf) h = Ok (r, h') ->
  (exists q b n ls l l', r = RErr ER_OK /\ p = Some q /\ buf = Some b /\ len <> 0 /\ num_clusters h q <> Some 0 /\ num_points h q = Some n /\ shown h q = Some ls /\ h_arr h !! b = Some l /\
     h_w h' = h_w h /\ h_obj h' = h_obj h /\ (forall b', b' <> b -> h_arr h' !! b' = h_arr h !! b') /\
     h_arr h' !! b = Some l' /\ length l' = length l /\
     (forall i, i < len -> i < n -> l' !! i = ls !! i) /\ (forall i, n <= i -> i < len -> l' !! i = Some (Some (cl_na cfg))) /\ (forall i, len <= i -> l' !! i = l !! i)) \/
  (r = RErr ER_INVALID_INPUT /\ (p = None \/ buf = None \/ len = 0 \/ exists q, p = Some q /\ num_clusters h q = Some 0) /\
     h_obj h' = h_obj h /\ h_arr h' = h_arr h /\ w_live (h_w h') ≡ₚ w_live (h_w h) /\ e_code (w_err (h_w h')) = ER_INVALID_INPUT).
Proof. exact claim_labels. Qed.
Print Assumptions C43_labels.
Example ex_C43 : history world0 (sharing ++ [X (OLabels (Some 2) 6 (Some 6))])
  [RUser 0; RNew ER_OK (Some (Some 1)); RNew ER_OK (Some (Some 2)); RDone; RNew ER_OK (Some (Some 4)); RDone; RUser 6; RInfo ER_OK (Some 4) (Some 2); RErr ER_OK] [5; 4; 3; 2; 1]
  6 (Some (Some <$> [0; 0; 1; 1; 4294967295; 4294967295]%Z)).
Proof. exact sharing_deep. Qed.

(** ** C44 *)

(** With [C43_labels] and [C44_info] for what is read back, [C42_copy_untouched] for
    deep copies. *)
Theorem C44_existing : forall cfg h num k b deep r h' p l, reachable cfg h -> legal cfg h (OInitExisting num k (Some b) deep true) -> step cfg (OInitExisting num k (Some b) deep true) h = Ok (r, h') ->
  r = RNew ER_OK (Some (Some p)) -> user_arr h b l ->
  exists ob, h_obj h' !! p = Some ob /\ (deep = true -> own_storage ob) /\ (deep = false -> ob_label ob = Some b) /\ num_points h' p = Some (N.to_nat num) /\ num_clusters h' p = Some (N.to_nat k) /\ shown h' p = Some (take (N.to_nat num) l).
Proof. exact claim_existing. Qed.
Print Assumptions C44_existing.
Theorem C44_info : forall cfg h p a b r h', reachable cfg h -> is_Some (h_obj h !! p) -> step cfg (OInfo (Some p) a b) h = Ok (r, h') ->
  h' = h /\ r = RInfo ER_OK (if a then num_points h p else None) (if b then num_clusters h p else None).
Proof. exact claim_info. Qed.
Print Assumptions C44_info.
Theorem C44_shared_write : forall cfg h b i x r h' p ob ls, reachable cfg h -> legal cfg h (OUserSet b i x) -> step cfg (OUserSet b i x) h = Ok (r, h') ->
  h_obj h !! p = Some ob -> ob_label ob = Some b -> shown h p = Some ls -> shown h' p = Some (<[i := Some x]> ls).
Proof. exact claim_shared_write. Qed.
Print Assumptions C44_shared_write.
Example ex_C44 : history world0 (sharing ++ [X (OLabels (Some 1) 3 (Some 6))])
  [RUser 0; RNew ER_OK (Some (Some 1)); RNew ER_OK (Some (Some 2)); RDone; RNew ER_OK (Some (Some 4)); RDone; RUser 6; RInfo ER_OK (Some 4) (Some 2); RErr ER_OK] [5; 4; 3; 2; 1]
  6 (Some ((Some <$> [1; 1; 1]%Z) ++ [None; None; None])).
Proof. exact sharing_shallow. Qed.

(** ** C45 *)

Theorem C45_constructors : forall cfg h o r h', reachable cfg h -> legal cfg h o -> constructor o -> step cfg o h = Ok (r, h') ->
  (exists p, r = RNew ER_OK (Some (Some p)) /\ h_obj h !! p = None /\ ptr_initialized cfg (Some p) h' = Ok (true, h') /\ w_err (h_w h') = w_err (h_w h)) \/
  (exists ec, r = RNew ec (if has_out o then Some None else None) /\ ec <> ER_OK /\ h_obj h' = h_obj h /\ h_arr h' = h_arr h /\ w_live (h_w h') ≡ₚ w_live (h_w h) /\ e_code (w_err (h_w h')) = ec).
Proof. exact claim_constructor. Qed.
Print Assumptions C45_constructors.
Theorem C45_when : forall cfg h o r h', reachable cfg h -> legal cfg h o -> constructor o -> step cfg o h = Ok (r, h') ->
  exists ec out, r = RNew ec out /\
    (args_good cfg o -> ec = ER_OK \/ (ec = ER_NO_MEMORY /\ ~ no_fail (h_w h))) /\
    (~ args_good cfg o -> ec = ER_INVALID_INPUT \/ ec = ER_TOO_LARGE_PROBLEM).
Proof. exact claim_constructor_code. Qed.
Print Assumptions C45_when.
Theorem C45_data_set : forall cfg num dims len matrix out w, exists ec r w', init_data_set cfg num dims len matrix out w = Ok ((ec, r), w') /\
  ((ec = ER_OK /\ w_err w' = w_err w /\ exists b d, r = Some (Some (b, d)) /\ is_initialized_data_set (Some d) = true /\ w_live w' = b :: w_live w /\
      ds_n d = N.to_nat num /\ ds_dim d = N.to_nat dims /\ ds_matrix d = matrix /\
      exists w2, free_data_set (Some b) w' = Ok (tt, w2) /\ w_live w2 = w_live w) \/
   (ec <> ER_OK /\ e_code (w_err w') = ec /\ r = (if out then Some None else None) /\ w_live w' = w_live w)).
Proof. exact data_set_outcome. Qed.
Print Assumptions C45_data_set.
Example ex_C45 : history world0 (sharing ++ [X (OFree (Some 1)); X (OLabels (Some 4) 4 (Some 6)); X (OFree (Some 2)); X (OFree (Some 4)); X (OUserDrop 0)])
  [RUser 0; RNew ER_OK (Some (Some 1)); RNew ER_OK (Some (Some 2)); RDone; RNew ER_OK (Some (Some 4)); RDone; RUser 6; RInfo ER_OK (Some 4) (Some 2); RDone; RErr ER_OK; RDone; RDone; RDone] []
  6 (Some ((Some <$> [1; 0; 1; 1]%Z) ++ [None; None])).
Proof. exact sharing_copy. Qed.

(** ** C46 *)

(** [m] is the caller's array, [len] the length they state. True with 32-bit point
    indices. *)
Theorem C46_enough_data : forall cfg num dims len m w w' b d, (pi_max cfg <= u32max)%N -> (len <= N.of_nat (length m))%N ->
  init_data_set cfg num dims len (Some m) true w = Ok ((ER_OK, Some (Some (b, d))), w') ->
  (num * dims <= len)%N /\ (forall i j, i < ds_n d -> j < ds_n d -> exists v, sq_dist d i j = Ok v) /\
  (Forall (fun x => d_is_finite x = true) m -> data_ok d (N.to_nat num)).
Proof. exact data_set_enough. Qed.
Print Assumptions C46_enough_data.
(** With 64-bit point indices the product wraps. *)
Theorem C46_enough_data_refuted : config_ok config64 /\ exists w num dims b d w', init_data_set config64 num dims 0 (Some []) true w = Ok ((ER_OK, Some (Some (b, d))), w') /\
  is_initialized_data_set (Some d) = true /\ (0 < num * dims)%N /\ 1 < ds_n d /\ sq_dist d 0 1 = Bad Oob.
Proof. exact (conj config64_ok data_set_wraps). Qed.
Print Assumptions C46_enough_data_refuted.
Example ex_C46 : exists b d w', init_data_set default_config 3 2 6 (Some (d_of_Z <$> [0; 1; 2; 3; 4; 5]%Z)) true world0 = Ok ((ER_OK, Some (Some (b, d))), w') /\
  exists w'', init_data_set default_config 3 2 5 (Some (d_of_Z <$> [0; 1; 2; 3; 4]%Z)) true world0 = Ok ((ER_INVALID_INPUT, Some None), w'').
Proof. eexists _, _, _. split; [vm_compute; reflexivity|]. eexists. vm_compute; reflexivity. Qed.

(** ** C47 *)

(** What is written to the caller's buffer. *)
Theorem C47_message : forall len buf w, 0 < len -> len <= length buf -> exists t, error_text (w_err w) t /\
  ((N.of_nat (length (chars t)) <= i32max)%N -> exists buf', get_latest_error len (Some buf) w = Ok ((true, Some buf'), w) /\ holds_text len t buf buf').
Proof. exact latest_error_spec. Qed.
Print Assumptions C47_message.
Theorem C47_message_unique : forall e t t', error_text e t -> error_text e t' -> t = t'.
Proof. exact error_text_fun. Qed.
Print Assumptions C47_message_unique.
Theorem C47_no_buffer : forall len buf w, len = 0 \/ buf = None -> get_latest_error len buf w = Ok ((false, buf), w).
Proof. exact latest_error_refuses. Qed.
Print Assumptions C47_no_buffer.
(** After a history of calls the error is that of the latest failing call. *)
Theorem C47_latest : forall cfg h rs h', reachable cfg h -> trace cfg h rs h' ->
  match last (omap failure rs) with Some ec => e_code (w_err (h_w h')) = ec | None => w_err (h_w h') = w_err (h_w h) end.
Proof. exact claim_history. Qed.
Print Assumptions C47_latest.
Theorem C47_hierarchical : forall cfg P V ds n G D qs log2cap k batch p h, (forall c, view h p = Some c -> hier_call cfg P V ds n G D qs k c) -> reporting (hier_run cfg P qs log2cap ds k batch) p h.
Proof. exact hier_reporting. Qed.
Print Assumptions C47_hierarchical.
Theorem C47_sc_clustering_partial : forall cfg P V ds n G D o c w ec cl' w', call_ok cfg P V ds n G D o c -> sc_clustering cfg P ds (Some o) (Some c) w = Ok ((ec, cl'), w') ->
  (ec <> ER_OK -> e_code (w_err w') = ec) /\ (ec = ER_OK -> solid P V ds n w -> w_err w' = w_err w \/ w_err w' = no_errst).
Proof. exact sc_report. Qed.
Print Assumptions C47_sc_clustering_partial.
(** "Unaffected by later successful calls" is false for scc_sc_clustering: one that
    succeeds erases the earlier error, another leaves an error of its own. *)
Theorem C47_unaffected_refuted :
  (callable pts excl_options /\ exists c' w', cluster_line pts excl_options (after_error 12) = Ok ((ER_OK, Some c'), w') /\ w_err w' = no_errst) /\
  (callable pts (with_size 3 default_options) /\ exists c' w', cluster_line pts (with_size 3 default_options) (after_error 9) = Ok ((ER_OK, Some c'), w') /\ e_code (w_err w') = ER_NO_MEMORY).
Proof. exact (conj forgets leaves_own). Qed.
Print Assumptions C47_unaffected_refuted.
Example ex_C47 : match get_latest_error 20 (Some (replicate 25 None)) (after_error 0), get_latest_error 60 (Some (replicate 60 None)) (World (fun _ => false) 0 [] (ErrSt ER_NO_MEMORY None "src/scclust.c" 70) 0 0) with
  | Ok ((true, Some b), _), Ok ((true, Some b'), _) =>
      b = (Some <$> chars "(scclust:src/scclus") ++ [Some nul] ++ replicate 5 None /\ take 57 b' = (Some <$> chars "(scclust:src/scclust.c:70) Cannot allocate required memor") | _, _ => False end.
Proof. by vm_compute. Qed.

(** ** C48 *)

(** The latest call that passed all three functions installed all three. *)
Theorem C48_max_functions : forall (F : Type) (builtins : ftable F) ops, let t := ftable_after builtins ops in
  (max_of t = max_of builtins /\ Forall (fun o => asks_max builtins o = None) ops) \/
  exists l o r, ops = l ++ o :: r /\ asks_max builtins o = Some (max_of t) /\ Forall (fun o => asks_max builtins o = None) r.
Proof. exact @table_max. Qed.
Print Assumptions C48_max_functions.
(** Likewise, except that a call rejected for its maximum-distance functions installs
    no nearest neighbour functions. *)
Theorem C48_nn_functions : forall (F : Type) (builtins : ftable F) ops, let t := ftable_after builtins ops in
  (nn_of t = nn_of builtins /\ Forall (fun o => forall m, ~ installs_nn builtins o m) ops) \/
  exists l o r, ops = l ++ o :: r /\ installs_nn builtins o (nn_of t) /\ Forall (fun o => forall m, ~ installs_nn builtins o m) r.
Proof. exact @table_nn. Qed.
Print Assumptions C48_nn_functions.
Theorem C48_single_functions : forall (F : Type) (builtins : ftable F) x ops, x ∈ singles -> let t := ftable_after builtins ops in
  (x.1 t = x.1 builtins /\ Forall (fun o => asks_single builtins x o = None) ops) \/
  exists l o r, ops = l ++ o :: r /\ asks_single builtins x o = Some (x.1 t) /\ Forall (fun o => asks_single builtins x o = None) r.
Proof. exact @table_single. Qed.
Print Assumptions C48_single_functions.
Definition table0 : ftable nat := FTable 0 1 2 3 4 5 6 7 8 9.
Example ex_C48 : ftable_after table0 [FSet (FArgs (Some 10) None None None (Some 14) (Some 15) (Some 16) None None None); FSet (FArgs None None (Some 22) None (Some 24) None (Some 26) (Some 27) (Some 28) (Some 29));
    FSet (FArgs None None None None None None None (Some 37) (Some 38) (Some 39))] = FTable 10 1 22 3 14 15 16 37 38 39.
Proof. done. Qed.

(** ** C49 *)

Theorem C49_returns_false : forall (F : Type) (a : fargs F) t, (set_dist_functions a t).1 = false <-> mixed (g_mx_init a) (g_mx_get a) (g_mx_close a) \/ mixed (g_nn_init a) (g_nn_search a) (g_nn_close a).
Proof. exact @set_result. Qed.
Print Assumptions C49_returns_false.
Theorem C49_unchanged_partial : forall (F : Type) (a : fargs F) t, (set_dist_functions a t).1 = false ->
  nn_of (set_dist_functions a t).2 = nn_of t /\ (mixed (g_mx_init a) (g_mx_get a) (g_mx_close a) -> max_of (set_dist_functions a t).2 = max_of t).
Proof. exact @rejected_keeps. Qed.
Print Assumptions C49_unchanged_partial.
(** The other functions may have been replaced. *)
Theorem C49_unchanged_refuted : exists (a : fargs nat) t, (set_dist_functions a t).1 = false /\ f_check (set_dist_functions a t).2 <> f_check t /\ max_of (set_dist_functions a t).2 <> max_of t.
Proof. exists (FArgs (Some 10) None None None (Some 14) (Some 15) (Some 16) (Some 17) None None), table0. by vm_compute. Qed.
Print Assumptions C49_unchanged_refuted.
