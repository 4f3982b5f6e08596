(** A concrete data set on which the theorems are tried out. *)

From stdpp Require Import prelude list sorting.
From Coq Require Import NArith ZArith.
From Verif Require Import Base World Mem Digraph DigraphRep Float Spi Dist Options Arrays GraphSpec SeedSpec AssignSpec SeedsExcl
  Nng NngGraph NngSize NngAssign NngStage TypeCount TypeRows Batch BatchProof OptionsProof NngClustering
  ScSpec ScProof ClusSpec ScFacts Approx ScClaims DistProof.

(** Points on a line. *)
Definition line (l : list Z) : dataset := DataSet dataset_version (length l) 1 (Some (d_of_Z <$> l)).

Definition world0 : world := World (fun _ => false) 0 [] no_errst 0 0.
(** The [i]th allocation fails. *)
Definition world_fail (i : nat) : world := World (fun j => bool_decide (j = i)) 0 [] no_errst 0 0.
Definition new_clustering (n : nat) : clustering := Clu clustering_version n 0 None false.

Definition with_size (k : nat) (o : options) : options :=
  {| o_version := o_version o; o_size := k; o_num_types := o_num_types o; o_tcons := o_tcons o; o_len_tlabels := o_len_tlabels o; o_tlabels := o_tlabels o;
     o_seed := o_seed o; o_len_prim := o_len_prim o; o_prim := o_prim o; o_pum := o_pum o; o_sum := o_sum o; o_srad := o_srad o; o_srad_val := o_srad_val o;
     o_prad := o_prad o; o_prad_val := o_prad_val o; o_2rad := o_2rad o; o_2rad_val := o_2rad_val o; o_batch := o_batch o |}.
Definition with_methods (sm : seed_method) (pum sum : unassigned_method) (o : options) : options :=
  {| o_version := o_version o; o_size := o_size o; o_num_types := o_num_types o; o_tcons := o_tcons o; o_len_tlabels := o_len_tlabels o; o_tlabels := o_tlabels o;
     o_seed := sm; o_len_prim := o_len_prim o; o_prim := o_prim o; o_pum := pum; o_sum := sum; o_srad := o_srad o; o_srad_val := o_srad_val o;
     o_prad := o_prad o; o_prad_val := o_prad_val o; o_2rad := o_2rad o; o_2rad_val := o_2rad_val o; o_batch := o_batch o |}.
Definition with_types (cons lbl : list nat) (o : options) : options :=
  {| o_version := o_version o; o_size := o_size o; o_num_types := length cons; o_tcons := Some cons; o_len_tlabels := length lbl; o_tlabels := Some lbl;
     o_seed := o_seed o; o_len_prim := o_len_prim o; o_prim := o_prim o; o_pum := o_pum o; o_sum := o_sum o; o_srad := o_srad o; o_srad_val := o_srad_val o;
     o_prad := o_prad o; o_prad_val := o_prad_val o; o_2rad := o_2rad o; o_2rad_val := o_2rad_val o; o_batch := o_batch o |}.
Definition with_primary (p : list nat) (o : options) : options :=
  {| o_version := o_version o; o_size := o_size o; o_num_types := o_num_types o; o_tcons := o_tcons o; o_len_tlabels := o_len_tlabels o; o_tlabels := o_tlabels o;
     o_seed := o_seed o; o_len_prim := length p; o_prim := Some p; o_pum := o_pum o; o_sum := o_sum o; o_srad := o_srad o; o_srad_val := o_srad_val o;
     o_prad := o_prad o; o_prad_val := o_prad_val o; o_2rad := o_2rad o; o_2rad_val := o_2rad_val o; o_batch := o_batch o |}.
Definition with_radii (r1 : radius_method) (v1 : Z) (r2 : radius_method) (v2 : Z) (r3 : radius_method) (v3 : Z) (o : options) : options :=
  {| o_version := o_version o; o_size := o_size o; o_num_types := o_num_types o; o_tcons := o_tcons o; o_len_tlabels := o_len_tlabels o; o_tlabels := o_tlabels o;
     o_seed := o_seed o; o_len_prim := o_len_prim o; o_prim := o_prim o; o_pum := o_pum o; o_sum := o_sum o; o_srad := r1; o_srad_val := d_of_Z v1;
     o_prad := r2; o_prad_val := d_of_Z v2; o_2rad := r3; o_2rad_val := d_of_Z v3; o_batch := o_batch o |}.
Definition with_batch (b : nat) (o : options) : options :=
  {| o_version := o_version o; o_size := o_size o; o_num_types := o_num_types o; o_tcons := o_tcons o; o_len_tlabels := o_len_tlabels o; o_tlabels := o_tlabels o;
     o_seed := o_seed o; o_len_prim := o_len_prim o; o_prim := o_prim o; o_pum := o_pum o; o_sum := o_sum o; o_srad := o_srad o; o_srad_val := o_srad_val o;
     o_prad := o_prad o; o_prad_val := o_prad_val o; o_2rad := o_2rad o; o_2rad_val := o_2rad_val o; o_batch := b |}.

(** Twelve points in three groups. *)
Definition pts : list Z := [0; 10; 1; 3; 12; 60; 9; 4; 61; 65; 14; 2]%Z.

(** Decides the requirements the library does not check. *)
Definition sane_b (o : options) (n : nat) : bool :=
  match o_prim o with None => true | Some p => bool_decide (o_len_prim o <= length p) && bool_decide (Forall (fun x => x < n) (take (o_len_prim o) p)) end &&
  match o_tcons o with None => true | Some l => bool_decide (o_num_types o <= length l) end &&
  match o_tlabels o with None => true | Some l => bool_decide (n <= length l) && bool_decide (Forall (fun t => t < o_num_types o) (take n l)) end &&
  (bool_decide (o_num_types o < 2) || (bool_decide (0 < tsum (o_num_types o) (tcons_of o)) && bool_decide (N.of_nat n <= u32max)%N)) &&
  bool_decide (N.of_nat (n * o_size o) <= u64max)%N && bool_decide (N.of_nat (o_size o) * eff_batch n (o_batch o) <= u32max)%N.

Definition finite_b (l : list Z) : bool := forallb (fun z => d_is_finite (d_of_Z z)) l.

Lemma line_data l : l <> [] -> finite_b l = true -> data_ok (line l) (length l).
Proof.
  intros H Hf. constructor; auto; [destruct l; simpl; [done|lia]|]. exists (d_of_Z <$> l). split; [done|]. split; [rewrite fmap_length; simpl; lia|].
  apply Forall_fmap. unfold finite_b in Hf. rewrite forallb_forall in Hf. apply Forall_forall. intros x Hx. by apply Hf, elem_of_list_In.
Qed.

Lemma line_call cfg l o c : config_ok cfg -> l <> [] -> finite_b l = true -> sane_b o (length l) = true -> clu_ok c ->
  call_ok cfg builtin (builtin_view (line l) (length l)) (Some (line l)) (length l) (eucl_geo (line l)) (eucl (line l)) o c.
Proof.
  intros Hcfg H1 H2 H3 Hc. unfold sane_b in H3. rewrite !andb_true_iff in H3. destruct H3 as (((((S1 & S2) & S3) & S4) & S5) & S6).
  constructor; auto.
  - by apply builtin_ok, line_data.
  - intros p Hp. rewrite Hp in S1. apply andb_true_iff in S1 as [S1 _]. by apply bool_decide_eq_true_1 in S1.
  - intros _. constructor.
    + intros p Hp. rewrite Hp in S1. apply andb_true_iff in S1 as [S1 S1']. apply bool_decide_eq_true_1 in S1, S1'. done.
    + intros p Hp. rewrite Hp in S2. by apply bool_decide_eq_true_1 in S2.
    + intros p Hp. rewrite Hp in S3. apply andb_true_iff in S3 as [S3 S3']. apply bool_decide_eq_true_1 in S3, S3'. done.
    + intros H. rewrite bool_decide_eq_false_2 in S4 by lia. simpl in S4. apply andb_true_iff in S4 as [S4 S4']. apply bool_decide_eq_true_1 in S4, S4'. auto.
    + by apply bool_decide_eq_true_1 in S5.
  - intros _. by apply bool_decide_eq_true_1 in S6.
Qed.

Lemma solid_line l : l <> [] -> finite_b l = true -> solid builtin (builtin_view (line l) (length l)) (Some (line l)) (length l) world0.
Proof. intros H1 H2. split; [done|]. by apply builtin_reliable, line_data. Qed.

(** Result of scc_sc_clustering on points on a line. *)
Definition cluster_line (pts : list Z) (o : options) (w : world) : R (ecode * option clustering * world) :=
  sc_clustering default_config builtin (Some (line pts)) (Some o) (Some (new_clustering (length pts))) w.

(** A call that meets the requirements of the claims, and its result: the number of
    clusters and the labels. *)
Definition clustered (l : list Z) (o : options) (k : nat) (labels : list Z) : Prop :=
  call_ok default_config builtin (builtin_view (line l) (length l)) (Some (line l)) (length l) (eucl_geo (line l)) (eucl (line l)) o (new_clustering (length l)) /\
  solid builtin (builtin_view (line l) (length l)) (Some (line l)) (length l) world0 /\
  exists c' w', cluster_line l o world0 = Ok ((ER_OK, Some c'), w') /\ c_k c' = k /\ cells c' = Some <$> labels.

Definition clustered_b (l : list Z) (o : options) (k : nat) (labels : list Z) : bool :=
  match l with [] => false | _ => true end && finite_b l && sane_b o (length l) &&
  match cluster_line l o world0 with
  | Ok ((ER_OK, Some c'), _) => bool_decide (c_k c' = k) && bool_decide (cells c' = Some <$> labels)
  | _ => false
  end.

Lemma clustered_by l o k labels : clustered_b l o k labels = true -> clustered l o k labels.
Proof.
  unfold clustered_b. rewrite !andb_true_iff. intros (((H1 & H2) & H3) & H4). assert (l <> []) as Hl by by destruct l.
  split; [apply line_call; auto; [apply default_config_ok|done]|]. split; [by apply solid_line|].
  destruct (cluster_line l o world0) as [[[[] [c'|]] w']|] eqn:E; try done. apply andb_true_iff in H4 as [H4%bool_decide_eq_true_1 H5%bool_decide_eq_true_1].
  eauto 10.
Qed.
