(** Data sets: src/data_set.c. *)

From Coq Require Import Strings.String.
From stdpp Require Import prelude list.
From Coq Require Import NArith ZArith.
From Verif Require Import Base World Mem DigraphRep Float Dist DistProof.
Open Scope string_scope. Open Scope list_scope. Open Scope nat_scope.

Definition src_data_set : string := "src/data_set.c".

Section DataSets.
Context (cfg : config).

(** scc_init_data_set (src/data_set.c 38-86): the error code and what is written to
    *out_data_set: nothing, NULL or a pointer, given with the struct it points to.
    [len] is the length the caller claims, [matrix] the caller's array. The product is
    computed in 64 bits; size_t and SIZE_MAX are those of a 64-bit platform. *)
Definition init_data_set (num dims len : N) (matrix : option (list double)) (out : bool) : M (ecode * option (option (nat * dataset))) :=
  let fail ec msg line : M (ecode * option (option (nat * dataset))) := let* ec := make_error_msg ec msg src_data_set line in Mret (ec, Some None) in
  if negb out then let* ec := make_error_msg ER_INVALID_INPUT "Output parameter may not be NULL." src_data_set 45 in Mret (ec, None) else
  if (num =? 0)%N then fail ER_INVALID_INPUT "Data set must have positive number of data points." 52%Z else
  if (pi_max cfg <? num)%N then fail ER_TOO_LARGE_PROBLEM "Too many data points (adjust the `scc_PointIndex` type)." 55%Z else
  if (u64max - 1 <? num)%N then fail ER_TOO_LARGE_PROBLEM "Too many data points." 58%Z else
  if (dims =? 0)%N then fail ER_INVALID_INPUT "Data set must have positive number of dimensions." 61%Z else
  if (65535 <? dims)%N then fail ER_TOO_LARGE_PROBLEM "Too many data dimensions." 64%Z else
  if (len <? (num * dims) mod (u64max + 1))%N then fail ER_INVALID_INPUT "Invalid data matrix." 67%Z else
  match matrix with
  | None => fail ER_INVALID_INPUT "Invalid data matrix." 70%Z
  | Some m =>
      let* p := malloc 1 in
      match p with
      | None => let* ec := make_error ER_NO_MEMORY src_data_set 74 in Mret (ec, Some None)
      | Some b => Mret (ER_OK, Some (Some (b, DataSet dataset_version (N.to_nat num) (N.to_nat dims) (Some m))))
      end
  end.

(** scc_free_data_set (src/data_set.c 89-95), on the pointer passed by address, which
    is set to NULL. *)
Definition free_data_set (p : option nat) : M unit := match p with None => Mret tt | Some b => free (Some b) end.

(** What the code compares the length with. *)
Definition enough (num dims len : N) : Prop := ((num * dims) mod (u64max + 1) <= len)%N.
Definition sizes_ok (num dims : N) : Prop := (num <> 0 /\ num <= pi_max cfg /\ num < u64max /\ dims <> 0 /\ dims <= 65535)%N.

Lemma init_cases num dims len matrix out w : exists ec r w', init_data_set num dims len matrix out w = Ok ((ec, r), w') /\
  ((ec = ER_OK /\ out = true /\ sizes_ok num dims /\ enough num dims len /\ w_fail w (w_next w) = false /\ w_err w' = w_err w /\
    exists m, matrix = Some m /\ r = Some (Some (w_next w, DataSet dataset_version (N.to_nat num) (N.to_nat dims) (Some m))) /\ w_live w' = w_next w :: w_live w) \/
   (ec <> ER_OK /\ w_live w' = w_live w /\ e_code (w_err w') = ec /\ r = (if out then Some None else None) /\
    ((ec = ER_NO_MEMORY /\ w_fail w (w_next w) = true) \/
     ((ec = ER_INVALID_INPUT \/ ec = ER_TOO_LARGE_PROBLEM) /\ (out = false \/ ~ sizes_ok num dims \/ ~ enough num dims len \/ matrix = None))))).
Proof.
  unfold init_data_set, sizes_ok, enough. destruct out; cbn [negb].
  2: { eexists _, _, _. split; [done|]. right. splits; auto; try done. }
  assert (forall ec msg line, exists w', (let* e := make_error_msg ec msg src_data_set line in Mret (e, @Some (option (nat * dataset)) None)) w = Ok ((ec, Some None), w') /\ w_live w' = w_live w /\ e_code (w_err w') = ec) as Hf.
  { intros. eexists. split; [done|]. done. }
  destruct (N.eqb_spec num 0) as [H1|H1]. { destruct (Hf ER_INVALID_INPUT "Data set must have positive number of data points." 52%Z) as (w' & -> & ? & ?). eexists _, _, _. split; [done|]. right. splits; auto; try done. right. split; [auto|]. right. left. tauto. }
  destruct (N.ltb_spec (pi_max cfg) num) as [H2|H2]. { destruct (Hf ER_TOO_LARGE_PROBLEM "Too many data points (adjust the `scc_PointIndex` type)." 55%Z) as (w' & -> & ? & ?). eexists _, _, _. split; [done|]. right. splits; auto; try done. right. split; [auto|]. right. left. lia. }
  destruct (N.ltb_spec (u64max - 1) num) as [H3|H3]. { destruct (Hf ER_TOO_LARGE_PROBLEM "Too many data points." 58%Z) as (w' & -> & ? & ?). eexists _, _, _. split; [done|]. right. splits; auto; try done. right. split; [auto|]. right. left. unfold u64max in *. lia. }
  destruct (N.eqb_spec dims 0) as [H4|H4]. { destruct (Hf ER_INVALID_INPUT "Data set must have positive number of dimensions." 61%Z) as (w' & -> & ? & ?). eexists _, _, _. split; [done|]. right. splits; auto; try done. right. split; [auto|]. right. left. lia. }
  destruct (N.ltb_spec 65535 dims) as [H5|H5]. { destruct (Hf ER_TOO_LARGE_PROBLEM "Too many data dimensions." 64%Z) as (w' & -> & ? & ?). eexists _, _, _. split; [done|]. right. splits; auto; try done. right. split; [auto|]. right. left. lia. }
  destruct (N.ltb_spec len ((num * dims) mod (u64max + 1))) as [H6|H6]. { destruct (Hf ER_INVALID_INPUT "Invalid data matrix." 67%Z) as (w' & -> & ? & ?). eexists _, _, _. split; [done|]. right. splits; auto; try done. right. split; [auto|]. right. right. left. lia. }
  destruct matrix as [m|]. 2: { destruct (Hf ER_INVALID_INPUT "Invalid data matrix." 70%Z) as (w' & -> & ? & ?). eexists _, _, _. split; [done|]. right. splits; auto; try done. right. tauto. }
  unfold Mbind, malloc. destruct (w_fail w (w_next w)) eqn:Ew.
  - eexists _, _, _. split; [done|]. right. splits; auto; try done.
  - eexists _, _, _. split; [done|]. left. splits; auto; try done. { unfold u64max in *; lia. } eauto.
Qed.
End DataSets.

(** ** Claims *)

(** On any error nothing is allocated and NULL is handed out; on success the object is
    initialised and one block is allocated. *)
Lemma data_set_outcome cfg num dims len matrix out w : exists ec r w', init_data_set cfg num dims len matrix out w = Ok ((ec, r), w') /\
  ((ec = ER_OK /\ w_err w' = w_err w /\ exists b d, r = Some (Some (b, d)) /\ is_initialized_data_set (Some d) = true /\ w_live w' = b :: w_live w /\
      ds_n d = N.to_nat num /\ ds_dim d = N.to_nat dims /\ ds_matrix d = matrix /\
      exists w2, free_data_set (Some b) w' = Ok (tt, w2) /\ w_live w2 = w_live w) \/
   (ec <> ER_OK /\ e_code (w_err w') = ec /\ r = (if out then Some None else None) /\ w_live w' = w_live w)).
Proof.
  destruct (init_cases cfg num dims len matrix out w) as (ec & r & w' & E & [(-> & -> & (S1 & S2 & S3 & S4 & S5) & _ & _ & He & m & -> & -> & Hl)|(H1 & H2 & H3 & H4 & _)]).
  - exists ER_OK, (Some (Some (w_next w, DataSet dataset_version (N.to_nat num) (N.to_nat dims) (Some m)))), w'. split; [done|]. left. split; [done|]. split; [done|]. eexists _, _. split; [done|].
    split. { unfold is_initialized_data_set. cbn [ds_version ds_n ds_dim ds_matrix]. rewrite !bool_decide_eq_true_2 by (done || lia). done. }
    splits; try done. exists (World (w_fail w') (w_next w') (w_live w) (w_err w') (w_tick w') (w_most w')). split; [|done].
    unfold free_data_set, free. rewrite Hl. destruct (decide (w_next w ∈ w_next w :: w_live w)) as [_|Hn]; [|destruct Hn; by left].
    simpl. destruct (decide (w_next w = w_next w)); [done|congruence].
  - exists ec, r, w'. split; [done|]. right. done.
Qed.

(** The product does not wrap when indices have 32 bits. *)
Lemma product_small cfg num dims : sizes_ok cfg num dims -> (pi_max cfg <= u32max)%N -> ((num * dims) mod (u64max + 1) = num * dims)%N.
Proof.
  intros (S1 & S2 & S3 & S4 & S5) Hp. apply N.mod_small. assert (num * dims <= u32max * 65535)%N by (apply N.mul_le_mono; lia). unfold u64max, u32max in *. lia.
Qed.

Lemma data_set_enough cfg num dims len m w w' b d : (pi_max cfg <= u32max)%N -> (len <= N.of_nat (length m))%N ->
  init_data_set cfg num dims len (Some m) true w = Ok ((ER_OK, Some (Some (b, d))), w') ->
  (num * dims <= len)%N /\ (forall i j, i < ds_n d -> j < ds_n d -> exists v, sq_dist d i j = Ok v) /\
  (Forall (fun x => d_is_finite x = true) m -> data_ok d (N.to_nat num)).
Proof.
  intros Hp Hlen E. destruct (init_cases cfg num dims len (Some m) true w) as (ec & r & w1 & E' & Hc). rewrite E in E'. injection E' as <- <- <-.
  destruct Hc as [(_ & _ & Hs & He & _ & _ & m' & [= <-] & [= <- ->] & _)|([] & _)]; [|done]. unfold enough in He. rewrite (product_small cfg) in He by done. split; [done|].
  assert (N.to_nat num * N.to_nat dims <= length m) as Hm by lia. destruct Hs as (S1 & S2 & S3 & S4 & S5). split.
  - cbn [ds_n]. intros i j Hi Hj. unfold sq_dist. cbn [ds_matrix ds_dim].
    assert (Rsat none (forR (N.to_nat dims) 0 d_zero (fun t acc => let! a := lget m (i * N.to_nat dims + t) in let! b0 := lget m (j * N.to_nat dims + t) in let v := d_sub a b0 in Ok (d_add acc (d_mul v v)))) (fun _ => True)) as Hs.
    { apply forR_sat0 with (I := fun _ _ => True); [done| |done]. intros t acc Ht _. unfold lget.
      destruct (lookup_lt_is_Some_2 m (i * N.to_nat dims + t)) as [x Ex]; [nia|]. destruct (lookup_lt_is_Some_2 m (j * N.to_nat dims + t)) as [y Ey]; [nia|]. rewrite Ex. simpl. rewrite Ey. done. }
    unfold Rsat in Hs. destruct (forR _ _ _ _); [eauto|done].
  - intros Hf. constructor; cbn [ds_version ds_n ds_dim ds_matrix]; auto; [lia|lia|]. exists m. done.
Qed.

(** With 64-bit indices the product wraps: 2^63 points in 2 dimensions are accepted with
    no data at all, and the first distance computation reads past the array. *)
Definition config64 : config := Config u64max u64max u32max (Z.of_N u32max) u64max false false.
Lemma config64_ok : config_ok config64.
Proof. repeat split; simpl; auto; vm_compute; congruence. Qed.

Lemma data_set_wraps : exists w num dims b d w', init_data_set config64 num dims 0 (Some []) true w = Ok ((ER_OK, Some (Some (b, d))), w') /\
  is_initialized_data_set (Some d) = true /\ (0 < num * dims)%N /\ 1 < ds_n d /\ sq_dist d 0 1 = Bad Oob.
Proof.
  exists (World (fun _ => false) 0 [] no_errst 0 0).
  assert (exists num : N, sizes_ok config64 num 2 /\ enough num 2 0 /\ (0 < num * 2)%N /\ (1 < num)%N) as (num & Hs & He & Hp & Hn).
  { exists (2 ^ 63)%N. unfold sizes_ok, enough. vm_compute. splits; done. }
  destruct (init_cases config64 num 2 0 (Some []) true (World (fun _ => false) 0 [] no_errst 0 0)) as (ec & r & w' & E & Hc).
  destruct Hc as [(-> & _ & _ & _ & _ & _ & m & [= <-] & -> & _)|(_ & _ & _ & _ & [[_ ?]|[_ [?|[H|[H|?]]]]])]; try done.
  exists num, 2%N, 0, (DataSet dataset_version (N.to_nat num) (N.to_nat 2) (Some [])), w'. split; [exact E|]. cbn [ds_n].
  assert (1 < N.to_nat num) as H1 by lia. splits; try done.
  unfold is_initialized_data_set. cbn [ds_version ds_n ds_dim ds_matrix]. rewrite !bool_decide_eq_true_2 by (done || lia). done.
Qed.
