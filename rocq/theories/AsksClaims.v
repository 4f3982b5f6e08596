(** Requests for memory: their sizes in bytes fit in size_t. *)

From stdpp Require Import prelude list sorting.
From Coq Require Import NArith ZArith Floats.SpecFloat.
From Verif Require Import Base World Mem Digraph DigraphRep Float FloatFacts Spi SpiTable Dist Options Arrays GraphSpec SeedSpec AssignSpec SeedsExcl
  Nng NngGraph NngSize NngAssign NngStage TypeCount TypeRows Batch BatchSpec BatchProof OptionsProof NngClustering Hier Util
  ScSpec ScProof ClusSpec ScFacts Approx ScClaims DistProof Example1 FailClaims HierSpec HierTop HierClaims CheckProof StatsProof UtilClaims Sim Ann Asks AsksSc.

(** [m] elements of [size] bytes each are a number of bytes that size_t can hold (64-bit
    platform). *)
Definition fits (size : N) (m : nat) : Prop := (N.of_nat m * size <= u64max)%N.

(** The types for points, arcs and labels have at most 32 bits (as in the default
    configuration). *)
Definition index32 (cfg : config) : Prop := (pi_max cfg <= u32max /\ ai_max cfg <= u32max /\ cl_max cfg <= u32max)%N.

(** The search functions do not ask for more than 2^48 elements at a time, as long as
    the search points and the neighbours are at most 2^32 - 1. *)
Definition ask_limit : nat := N.to_nat (2 ^ 48).
Definition index_limit : nat := N.to_nat u32max.
Definition modest (P : provider) : Prop := provider_asks ask_limit index_limit P.

Lemma limits : 20 * index_limit + 4000 <= ask_limit /\ (65535 * N.of_nat index_limit <= N.of_nat ask_limit)%N /\ 1 <= ask_limit /\ index_limit <= ask_limit.
Proof.
  unfold ask_limit, index_limit. assert (20 * u32max + 4000 <= 2 ^ 48 /\ 65535 * u32max <= 2 ^ 48 /\ u32max <= 2 ^ 48 /\ 1 <= 2 ^ 48)%N as H by (vm_compute; splits; congruence).
  revert H. generalize u32max (2 ^ 48)%N. intros x y H. lia.
Qed.

Lemma fits_most size w w' : (size <= 64)%N -> fits size (w_most w) -> w_most w' <= Nat.max (w_most w) ask_limit -> fits size (w_most w').
Proof.
  unfold fits, ask_limit. intros Hs Hw H.
  assert (N.of_nat (w_most w') <= N.max (N.of_nat (w_most w)) (2 ^ 48))%N as H' by lia. destruct (N.max_spec (N.of_nat (w_most w)) (2 ^ 48)) as [[_ E]|[_ E]]; rewrite E in H'.
  - etransitivity; [apply (N.mul_le_mono _ _ _ _ H' Hs)|]. vm_compute. congruence.
  - etransitivity; [apply (N.mul_le_mono_r _ _ _ H')|done].
Qed.

Lemma index32_le cfg : index32 cfg -> (pi_max cfg <= N.of_nat index_limit /\ ai_max cfg <= N.of_nat index_limit /\ cl_max cfg <= N.of_nat index_limit /\ u32max <= N.of_nat index_limit)%N.
Proof. unfold index32, index_limit. rewrite N2Nat.id. intros (? & ? & ?). splits; auto; lia. Qed.

Lemma index_le n : n <= index_limit -> (N.of_nat n <= u32max)%N.
Proof. unfold index_limit. generalize u32max. intros; lia. Qed.

Section Claims.
Context (cfg : config) (P : provider) (H32 : index32 cfg) (HP : modest P) (size : N) (Hs : (size <= 64)%N).

Lemma sc_fits V ds n G D o c w r w' : call_ok cfg P V ds n G D o c -> Forall (fun m => (N.of_nat m <= u32max)%N) (tcons_of o) -> fits size (w_most w) ->
  sc_clustering cfg P ds (Some o) (Some c) w = Ok (r, w') -> fits size (w_most w').
Proof.
  intros [H1 H2 H3 H4 H5 _] Ht Hw E. destruct (index32_le cfg H32) as (Hpi & Hai & Hcl & Hu). destruct limits as (Hb & _).
  apply (fits_most size w); auto. refine (at_sc_clustering ask_limit index_limit Hb cfg H1 Hpi Hai Hcl Hu P V ds n G D H2 HP o c w H3 H4 H5 _ r w' E).
  eapply Forall_impl; [exact Ht|]. intros x Hx. cbv beta in Hx. lia.
Qed.

Lemma hier_fits qs log2cap ds k batch cl w r w' : (forall c n, (N.of_nat n <= u32max)%N -> log2cap c n <= 64 * c) -> fits size (w_most w) ->
  hierarchical_clustering cfg P qs log2cap ds k batch cl w = Ok (r, w') -> fits size (w_most w').
Proof.
  intros Hl Hw E. destruct (index32_le cfg H32) as (Hpi & Hai & Hcl & Hu). destruct limits as (Hb & _).
  apply (fits_most size w); auto. by destruct (ak_hierarchical ask_limit index_limit Hb cfg Hpi Hai Hcl Hu P HP qs log2cap (fun c n Hn => Hl c n (index_le n Hn)) ds k batch cl w r w' E).
Qed.

Lemma check_fits cl opt out w r w' : fits size (w_most w) -> check_clustering cfg cl opt out w = Ok (r, w') -> fits size (w_most w').
Proof using H32 Hs.
  intros Hw E. destruct (index32_le cfg H32) as (Hpi & Hai & Hcl & Hu). destruct limits as (Hb & Hb2 & _ & Hb3).
  apply (fits_most size w); auto. by destruct (ak_check ask_limit index_limit Hb cfg Hpi Hai Hcl Hu Hb2 cl opt out w r w' E).
Qed.
End Claims.

Opaque ask_limit index_limit.

(** The built-in search functions and those of the ANN wrapper. *)
Lemma builtin_modest : modest builtin.
Proof. destruct limits as (_ & _ & H1 & H2). by apply builtin_asks. Qed.

Lemma ann_modest lib pi_int : modest (ann lib pi_int).
Proof.
  destruct limits as (_ & _ & H1 & H2). pose proof builtin_modest as [B1 B2 B3 B4 B5 B6 B7 B8].
  assert (forall x, askM ask_limit anyv (deref x)) as Hderef. { intros x w a w' E. unfold deref in E. destruct (decide _); [|done]. injection E as <- <-. split; [done|lia]. }
  assert (forall t, askM ask_limit anyv (set_open t)) as Hset by (intros t w a w' [= <- <-]; simpl; split; [done|lia]).
  assert (askM ask_limit anyv get_open) as Hget by (intros w a w' [= <- <-]; split; [done|lia]).
  assert (forall o q k rad ix, k <= index_limit -> askM ask_limit anyv (ann_search_2 lib o q k rad ix)) as Hs2.
  { intros o q k rad ix Hk. unfold ann_search_2. eapply ak_bind; [apply ak_malloc_arr; lia|]. intros [ib|] _; [|by apply ak_ret]. eapply ak_bind; [apply ak_malloc_arr; lia|]. intros [db|] _; [|by apply ak_ret].
    eapply ak_bind; [apply ak_lift|]. intros r _. do 2 (eapply ak_bind; [apply ak_free_arr|]; intros _ _). by apply ak_ret. }
  constructor; try assumption.
  - intros d s Hs. simpl. unfold ann_init. destruct (_ <? _)%N; [by apply ak_ret|]. eapply ak_bind; [apply ak_malloc; lia|]. intros [pb|] _; [|by apply ak_ret].
    eapply ak_bind; [apply ak_malloc; lia|]. intros [ob|] _; [|by apply ak_ret]. eapply ak_bind; [apply ak_lift|]. intros ps _. eapply ak_bind; [apply ak_malloc; lia|]. intros [tb|] _.
    + eapply ak_bind; [apply Hget|]. intros t _. eapply ak_bind; [apply Hset|]. intros _ _. by apply ak_ret.
    + do 2 (eapply ak_bind; [apply ak_free|]; intros _ _). by apply ak_ret.
  - intros o q k rad Hk. simpl. unfold ann_search. do 2 (eapply ak_bind; [apply Hderef|]; intros _ _). destruct (_ <? _)%N; [by apply ak_ret|]. cbv zeta. destruct (_ && _); [|by apply Hs2].
    eapply ak_bind; [apply ak_malloc_arr; lia|]. intros [db|] _; [|by apply ak_ret]. eapply ak_bind; [apply ak_lift|]. intros r _. destruct rad; [|by apply Hs2].
    eapply ak_bind; [apply ak_lift|]. intros r2 _. eapply ak_bind; [apply ak_free_arr|]. intros _ _. by apply ak_ret.
  - intros o. simpl. unfold ann_close. eapply ak_bind; [apply Hderef|]. intros _ _. do 3 (eapply ak_bind; [apply ak_free|]; intros _ _). eapply ak_bind; [apply Hget|]. intros t _.
    destruct (decide _); [by apply ak_ret|]. eapply ak_bind; [apply Hset|]. intros _ _. by apply ak_ret.
Qed.

Transparent ask_limit index_limit.

(** ** Statistics *)

Lemma askM_le b b' {A} (Q : A -> Prop) m : b <= b' -> askM b Q m -> askM b' Q m.
Proof. intros Hb H w a w' E. destruct (H _ _ _ E). split; [done|lia]. Qed.

(** Requests never shrink the largest one. *)
Definition growM {A} (m : M A) : Prop := forall w a w', m w = Ok (a, w') -> w_most w <= w_most w'.
Lemma gr_ret {A} (a : A) : growM (Mret a).
Proof. by intros w a' w' [= <- <-]. Qed.
Lemma gr_lift {A} (m : R A) : growM (lift m).
Proof. intros w a w' E. unfold lift in E. destruct m; [|done]. by injection E as <- <-. Qed.
Lemma gr_bind {A C} (m : M A) (k : A -> M C) : growM m -> (forall a, growM (k a)) -> growM (Mbind m k).
Proof. intros H1 H2 w c w' E. unfold Mbind in E. destruct (m w) as [[a w1]|] eqn:E1; [|done]. specialize (H1 _ _ _ E1). specialize (H2 _ _ _ _ E). lia. Qed.
Lemma gr_free {A} (p : option (arr A)) : growM (free_arr p).
Proof. intros w a w' E. unfold free_arr, free in E. destruct p; [|by injection E as <- <-]. destruct (decide _); [|done]. by injection E as <- <-. Qed.
Lemma gr_error ec m f l : growM (make_error__ ec m f l).
Proof. unfold make_error__. apply gr_bind; [|intros; apply gr_ret]. by intros w a w' [= <- <-]. Qed.
Lemma gr_loopM {S T} n i (s : S) (f : nat -> S -> M (S + T)) : (forall j s, growM (f j s)) -> growM (loopM n i s f).
Proof.
  intros Hf. unfold loopM. revert i s. induction n as [|n IH]; intros i s w a w' E; simpl in E; [by injection E as <- <-|].
  destruct (f i s w) as [[[s1|t1] w1]|] eqn:E1; simpl in E; [| |done].
  - specialize (Hf _ _ _ _ _ E1). specialize (IH (Datatypes.S i) s1 w1 a w' E). lia.
  - injection E as <- <-. exact (Hf _ _ _ _ _ E1).
Qed.
Lemma gr_matrix d n q out : growM (dist_matrix builtin d n q out).
Proof.
  unfold dist_matrix. apply gr_bind; [apply gr_lift|]. intros a. apply gr_bind; [simpl; unfold imp_matrix; apply gr_lift|].
  intros [x|]; [|apply gr_ret]. apply gr_bind; [apply gr_lift|intros; apply gr_ret].
Qed.

Section Stats.
Context (cfg : config) (P : provider) (V : pview P) (ds : p_ds P) (n : nat) (G : geometry) (D : dist_fun) (c : clustering).
Hypothesis (Hc : stats_call cfg P V ds n G D c).

Lemma at_stats b m w : modest P -> ask_limit <= b -> c_n c <= b -> c_k c <= b -> (forall j, j < c_k c -> length (cluster c j) <= m) -> m * (m - 1) / 2 <= b ->
  askAt b w (get_clustering_stats cfg P ds (Some c) true).
Proof.
  intros HPA Hlim Hcn Hck Hm Hb. pose proof Hc as [Hcfg HP Hi Hn Hk Hw Hlab Hsq]. pose proof (initialized_k _ _ Hi) as Hkm. pose proof (initialized_n _ _ Hcfg Hi) as Hnm. rewrite Hn in Hnm.
  unfold get_clustering_stats. cbn [negb]. rewrite Hi. cbn [negb]. rewrite decide_False by done. rewrite (pk_check _ _ _ _ _ _ HP). cbn [negb].
  rewrite decide_False by (rewrite (pk_num _ _ _ _ _ _ HP); auto).
  eapply (at_ask _ anyv). eapply ak_bind; [by apply ak_calloc_arr|]. intros [[bl a]|] Ha; [|eapply ak_bind; [apply ak_make_error__|]; intros; by apply ak_ret].
  specialize (Ha _ eq_refl). cbn [a_cells] in Ha. subst a. rewrite replicate_farr. cbv zeta.
  eapply ak_bind; [apply ak_lift|]. intros r Er. pose proof (count_sizes_sat cfg c Hcfg Hkm Hk Hw Hlab anyub bl) as Hsat. rewrite Er in Hsat. cbn [Rsat] in Hsat. subst r.
  eapply ak_bind; [apply ak_lift|]. intros s Es. pose proof (size_stats_sat cfg n c Hcfg Hn Hkm Hk Hlab Hsq Hnm anyub bl) as Hsat. unfold stats0 in Hsat. rewrite <- Hn in Hsat. rewrite Es in Hsat. cbn [Rsat] in Hsat. destruct Hsat as (Hco & _ & Has).
  destruct (decide (st_pop s = 0)) as [Hp|Hp]; [eapply ak_bind; [apply ak_free_arr|]; intros; by apply ak_ret|].
  destruct (ct_max _ _ _ Hco) as (_ & Hmax1 & _). destruct (Hmax1 Hp) as (j & Hj & _ & Ej). pose proof (Hm j Hj) as Hjm. rewrite <- Ej in Hjm.
  eapply ak_bind; [apply ak_malloc_arr|].
  { rewrite (ct_assigned _ _ _ Hco). etransitivity; [apply filter_length|]. rewrite seq_length. done. }
  intros st _. eapply ak_bind; [by apply ak_malloc_arr|]. intros ptr _. eapply ak_bind; [apply ak_malloc_arr|].
  { etransitivity; [|exact Hb]. apply Nat.div_le_mono; [lia|]. transitivity (st_maxsize s * (st_maxsize s - 1)); [|nia].
    assert (N.of_nat (wrapN u64max (st_maxsize s * (st_maxsize s - 1))) <= N.of_nat (st_maxsize s * (st_maxsize s - 1)))%N; [|lia]. unfold wrapN. rewrite N2Nat.id. apply N.mod_le. unfold u64max. lia. }
  intros d _.
  assert (forall A (k : M A), askM b anyv k -> askM b anyv (let* _ := (let* _ := free_arr (farr bl (sizes c)) in let* _ := free_arr st in let* _ := free_arr ptr in free_arr d) in k)) as Hclean.
  { intros A k0 Hk0. eapply (ak_bind b anyv); [|by intros]. do 3 (eapply ak_bind; [apply ak_free_arr|]; intros _ _). apply ak_free_arr. }
  assert (forall l ec, askM b anyv (let* e := make_error ec src_util l in Mret (e, Some null_stats))) as Herr by (intros; eapply ak_bind; [apply ak_make_error|]; intros; by apply ak_ret).
  destruct st as [st|]; [|by apply Hclean]. destruct ptr as [ptr|]; [|by apply Hclean]. destruct d as [d|]; [|by apply Hclean].
  eapply ak_bind; [apply ak_lift|]. intros pt _. eapply ak_bind; [apply ak_lift|]. intros [pt2 st2] _.
  eapply (ak_bind b anyv); [|intros [[s' d']|[]] _; apply Hclean; [by apply ak_ret|apply Herr]].
  unfold dist_stats. eapply ak_any, (ak_loopM b anyv anyv); [done|]. intros i [s1 d1] _. eapply ak_bind; [apply ak_lift|]. intros z _. destruct (decide _); [by apply ak_ret|].
  eapply ak_bind; [apply ak_lift|]. intros p _. eapply (ak_bind b anyv).
  { unfold dist_matrix. eapply ak_bind; [apply ak_lift|]. intros a _. eapply ak_bind; [eapply askM_le; [exact Hlim|apply (pa_matrix _ _ _ HPA)]|]. intros [x|] _; [|by apply ak_ret].
    eapply ak_bind; [apply ak_lift|]. intros; by apply ak_ret. }
  intros [d2|] _; [|by apply ak_ret]. eapply ak_bind; [apply ak_lift|]. intros [[? ?] ?] _. by apply ak_ret.
Qed.

(** Clusters of up to 2^31 points. *)
Lemma stats_fits w r w' : index32 cfg -> modest P -> (forall j, j < c_k c -> (N.of_nat (length (cluster c j)) <= 2 ^ 31)%N) -> fits 8 (w_most w) ->
  get_clustering_stats cfg P ds (Some c) true w = Ok (r, w') -> fits 8 (w_most w').
Proof.
  intros H32 HPA Hm Hw E. pose proof Hc as [Hcfg _ Hi Hn _ _ _ _]. pose proof (initialized_k _ _ Hi) as Hkm. destruct H32 as (Hpi & _ & Hcl).
  assert (N.of_nat (c_n c) <= pi_max cfg)%N as Hnm.
  { unfold is_initialized_clustering in Hi. destruct (decide (c_version c <> _)); [done|]. destruct (decide (c_n c = 0)); [done|]. destruct (N.ltb_spec (pi_max cfg) (N.of_nat (c_n c))); [done|]. done. }
  set (b := N.to_nat (2 ^ 61 - 1)). assert (u32max <= 2 ^ 61 - 1 /\ 2 ^ 48 <= 2 ^ 61 - 1)%N as [Hu H48] by (vm_compute; split; congruence).
  assert (2 ^ 31 * (2 ^ 31 - 1) <= 2 * (2 ^ 61 - 1))%N as Hsq by (vm_compute; congruence). assert (8 * (2 ^ 61 - 1) <= u64max)%N as Hu64 by (vm_compute; congruence).
  assert (w_most w' <= Nat.max (w_most w) b) as H.
  { refine (at_stats b (N.to_nat (2 ^ 31)) w HPA _ _ _ _ _ r w' E); subst b.
    - unfold ask_limit. clear -H48. revert H48. generalize (2 ^ 48)%N (2 ^ 61 - 1)%N. intros; lia.
    - clear -Hnm Hpi Hu. revert Hnm Hpi Hu. generalize (2 ^ 61 - 1)%N u32max. intros; lia.
    - clear -Hkm Hcl Hu. revert Hkm Hcl Hu. generalize (2 ^ 61 - 1)%N u32max. intros; lia.
    - intros j Hj. specialize (Hm j Hj). clear -Hm. revert Hm. generalize (2 ^ 31)%N. intros; lia.
    - apply Nat.div_le_upper_bound; [lia|]. clear -Hsq. revert Hsq. generalize (2 ^ 61 - 1)%N (2 ^ 31)%N. intros x y Hsq. nia. }
  unfold fits in *. subst b. clear -H Hw Hu64. revert H Hw Hu64. generalize u64max (2 ^ 61 - 1)%N. intros; lia.
Qed.
End Stats.

(** The request for the distances within the largest cluster. *)
Definition lowM {A} (x : nat) (m : M A) (w : world) : Prop := forall a w', m w = Ok (a, w') -> x <= w_most w'.
Lemma lo_bind {A C} x (m : M A) (k : A -> M C) w : (forall a w1, m w = Ok (a, w1) -> lowM x (k a) w1) -> lowM x (Mbind m k) w.
Proof. intros H c w' E. unfold Mbind in E. destruct (m w) as [[a w1]|] eqn:E1; [|done]. exact (H _ _ eq_refl _ _ E). Qed.
Lemma lo_grow {A} x (m : M A) w : growM m -> x <= w_most w -> lowM x m w.
Proof. intros H Hx a w' E. specialize (H _ _ _ E). lia. Qed.

Lemma stats_request cfg ds n V G D c j w r w' : stats_call cfg builtin V ds n G D c -> w_fail w (w_next w) = false -> j < c_k c -> cluster c j <> [] ->
  get_clustering_stats cfg builtin ds (Some c) true w = Ok (r, w') -> length (cluster c j) * (length (cluster c j) - 1) / 2 <= w_most w'.
Proof.
  intros Hc Hf Hj Hne. pose proof Hc as [Hcfg HP Hi Hn Hk Hw Hlab Hsq]. pose proof (initialized_k _ _ Hi) as Hkm. pose proof (initialized_n _ _ Hcfg Hi) as Hnm. rewrite Hn in Hnm.
  set (x := length (cluster c j) * (length (cluster c j) - 1) / 2).
  enough (lowM x (get_clustering_stats cfg builtin ds (Some c) true) w) as H by (intros E; exact (H _ _ E)). revert x. intros x.
  unfold get_clustering_stats. cbn [negb]. rewrite Hi. cbn [negb]. rewrite decide_False by done. rewrite (pk_check _ _ _ _ _ _ HP). cbn [negb].
  rewrite decide_False by (rewrite (pk_num _ _ _ _ _ _ HP); auto).
  apply lo_bind. intros a w1 E1. unfold calloc_arr, malloc, Mbind in E1. rewrite Hf in E1. injection E1 as <- <-. rewrite replicate_farr. cbv zeta.
  apply lo_bind. intros r1 w2 E2. unfold lift in E2. pose proof (count_sizes_sat cfg c Hcfg Hkm Hk Hw Hlab anyub (w_next w)) as Hsat.
  destruct (count_sizes _ _ _) as [r2|]; [|done]. injection E2 as -> <-. cbn [Rsat] in Hsat. subst r1.
  apply lo_bind. intros s w2 E2. unfold lift in E2. pose proof (size_stats_sat cfg n c Hcfg Hn Hkm Hk Hlab Hsq Hnm anyub (w_next w)) as Hsat. unfold stats0 in Hsat. rewrite <- Hn in Hsat.
  destruct (size_stats _ _ _) as [s1|]; [|done]. injection E2 as -> <-. cbn [Rsat] in Hsat. destruct Hsat as (Hco & _ & Has).
  assert (st_pop s <> 0) as Hp. { rewrite (ct_pop _ _ _ Hco). intros E%nil_length_inv. assert (j ∈ filter (fun j => cluster c j <> []) (seq 0 (c_k c))) as Hin by (apply elem_of_list_filter; split; [done|apply elem_of_seq; lia]). rewrite E in Hin. by apply elem_of_nil in Hin. }
  rewrite decide_False by done. destruct (ct_max _ _ _ Hco) as (_ & Hmax1 & Hmax). destruct (Hmax1 Hp) as (j' & Hj' & _ & Ej'). specialize (Hmax j Hj).
  assert (st_maxsize s <= n) as Hle. { rewrite Ej', <- Hn. unfold cluster. etransitivity; [apply filter_length|]. by rewrite seq_length. }
  apply lo_bind. intros a w3 _. apply lo_bind. intros a0 w4 _. apply lo_bind. intros d w5 E5.
  assert (x <= w_most w5) as Hx.
  { unfold malloc_arr, malloc, Mbind in E5. rewrite wrapN_small in E5 by nia. transitivity (st_maxsize s * (st_maxsize s - 1) / 2); [apply Nat.div_le_mono; [lia|nia]|].
    destruct (w_fail w4 (w_next w4)); injection E5 as <- <-; cbn [w_most]; apply Nat.le_max_r. }
  apply lo_grow; [|done].
  assert (forall sz st ptr, growM (let* _ := free_arr (A := nat) sz in let* _ := free_arr (A := nat) st in let* _ := free_arr (A := nat) ptr in free_arr d)) as Hclean.
  { intros. do 3 (apply gr_bind; [apply gr_free|intros]). apply gr_free. }
  destruct a as [st|], a0 as [ptr|], d as [d|]; try (apply gr_bind; [apply Hclean|intros]; apply gr_bind; [apply gr_error|intros; apply gr_ret]).
  apply gr_bind; [apply gr_lift|]. intros pt. apply gr_bind; [apply gr_lift|]. intros [pt2 st2]. apply gr_bind.
  { unfold dist_stats. apply gr_loopM. intros i [s2 d2]. apply gr_bind; [apply gr_lift|]. intros z. destruct (decide _); [apply gr_ret|]. apply gr_bind; [apply gr_lift|]. intros p.
    apply gr_bind; [apply gr_matrix|]. intros [d3|]; [|apply gr_ret]. apply gr_bind; [apply gr_lift|]. intros [[? ?] ?]. apply gr_ret. }
  intros [[s' d']|[]]; (apply gr_bind; [apply Hclean|intros]); [apply gr_ret|]. apply gr_bind; [apply gr_error|intros; apply gr_ret].
Qed.

(** One cluster of [m] points, all at the same place. *)
Section Huge.
Context (m : nat) (Hm : 0 < m) (Hmax : (N.of_nat m <= u32max)%N) (Hsq : (N.of_nat (m * (m - 1)) <= u64max)%N).
Definition one_place : list Z := replicate m 0%Z.
Definition one_cluster : clustering := Clu clustering_version m 1 (Some (Arr 0 (replicate m (Some 0%Z)))) false.

Lemma one_label x : x < m -> cells one_cluster !! x = Some (Some 0%Z).
Proof. intros Hx. unfold cells. simpl. by apply lookup_replicate. Qed.
Lemma one_all : cluster one_cluster 0 = seq 0 m.
Proof.
  unfold cluster. change (c_n one_cluster) with m. assert (forall l : list nat, (forall x, x ∈ l -> x < m) -> filter (fun x => label_of one_cluster x = Some (Z.of_nat 0)) l = l) as H; [|apply H; intros x Hx%elem_of_seq; lia].
  induction l as [|y l IH]; intros H; [done|]. rewrite filter_cons, decide_True; [f_equal; apply IH; intros; apply H; by right|].
  unfold label_of. rewrite one_label; [done|]. apply H. by left.
Qed.
Lemma one_callable : stats_callable one_place one_cluster.
Proof.
  destruct (valid_written default_config one_cluster) as [Hw Hl]; [unfold cells; simpl; by rewrite replicate_length|intros x Hx; exists 0%Z; split; [by apply one_label|right; simpl; lia]|].
  assert (length one_place = m) as Hlen by (unfold one_place; by rewrite replicate_length).
  constructor; auto; [apply default_config_ok| | |by rewrite Hlen].
  - apply builtin_ok, line_data; [intros E; rewrite E in Hlen; simpl in Hlen; lia|]. unfold finite_b. apply forallb_forall. intros z Hz. apply elem_of_list_In in Hz. apply elem_of_replicate in Hz as [-> _]. by vm_compute.
  - unfold is_initialized_clustering. cbn [c_version c_n c_k c_label one_cluster]. rewrite decide_False by tauto. rewrite decide_False by lia.
    destruct (N.ltb_spec (pi_max default_config) (N.of_nat m)) as [H|H]; [change (pi_max default_config) with u32max in H; lia|]. done.
Qed.
Lemma one_request : exists ec out w', stats_line one_place one_cluster (world_old (fun _ => false)) = Ok ((ec, out), w') /\ m * (m - 1) / 2 <= w_most w'.
Proof.
  destruct (stats_run _ _ _ _ _ _ _ _ one_callable (world_old (fun _ => false))) as (ec & out & w' & E & _). exists ec, out, w'. split; [exact E|].
  assert (length (cluster one_cluster 0) = m) as Hl by (rewrite one_all, seq_length; done).
  pose proof (stats_request _ _ _ _ _ _ one_cluster 0 (world_old (fun _ => false)) _ _ one_callable eq_refl ltac:(simpl; lia) ltac:(intros H; rewrite H in Hl; simpl in Hl; lia) E) as H. by rewrite Hl in H.
Qed.
End Huge.

Lemma huge_refuted : exists l c ec out w', stats_callable l c /\ stats_line l c (world_old (fun _ => false)) = Ok ((ec, out), w') /\ ~ fits 8 (w_most w').
Proof.
  set (m := N.to_nat (2 ^ 31 + 1)). assert (N.of_nat m = 2 ^ 31 + 1)%N as Hm by (subst m; apply N2Nat.id). clearbody m.
  assert (N.of_nat (m * (m - 1)) = (2 ^ 31 + 1) * 2 ^ 31)%N as Hp by (rewrite Nat2N.inj_mul, Nat2N.inj_sub, Hm; by vm_compute).
  assert (N.of_nat (m * (m - 1) / 2) = (2 ^ 31 + 1) * 2 ^ 30)%N as Hd by (rewrite Nat2N.inj_div, Hp; by vm_compute).
  assert (0 < m) as H1 by (clear Hp Hd; destruct m; [by vm_compute in Hm|lia]).
  assert (N.of_nat m <= u32max)%N as H2 by (rewrite Hm; by vm_compute).
  assert (N.of_nat (m * (m - 1)) <= u64max)%N as H3 by (rewrite Hp; by vm_compute).
  destruct (one_request m H1 H2 H3) as (ec & out & w' & E & Hw). exists (one_place m), (one_cluster m), ec, out, w'. split; [by apply one_callable|]. split; [exact E|]. unfold fits.
  intros Hf. assert (N.of_nat (m * (m - 1) / 2) * 8 <= u64max)%N as Hx. { etransitivity; [|exact Hf]. apply N.mul_le_mono_r. clear -Hw. lia. }
  rewrite Hd in Hx. by vm_compute in Hx.
Qed.

(** ** Examples *)

(** The largest number of elements asked for in a run. *)
Definition asked {A} (r : R (A * world)) : option nat := match r with Ok (_, w) => Some (w_most w) | Bad _ => None end.

Lemma default_index32 : index32 default_config.
Proof. by vm_compute. Qed.
Lemma cap_small c n : (N.of_nat n <= u32max)%N -> cap c n <= 64 * c.
Proof.
  intros Hn. unfold cap. assert (Nat.log2 n <= 64) as H; [|nia]. destruct (decide (n = 0)) as [-> |Hz]; [change (Nat.log2 0) with 0; lia|].
  destruct (Nat.log2_spec n ltac:(lia)) as [H _]. assert (2 ^ N.of_nat (Nat.log2 n) <= u32max)%N as H2.
  { etransitivity; [|exact Hn]. change 2%N with (N.of_nat 2). rewrite <- Nat2N.inj_pow. revert H. generalize (2 ^ Nat.log2 n). clear. intros; lia. }
  clear H. destruct (decide (Nat.log2 n <= 64)) as [|Hgt]; [done|exfalso]. assert (65 <= N.of_nat (Nat.log2 n))%N as H3 by lia. apply (N.pow_le_mono_r 2) in H3; [|done].
  pose proof (N.le_trans _ _ _ H3 H2) as H4. by vm_compute in H4.
Qed.

Definition wide_types : options := with_types [1; 1] [0; 1; 0; 0; 0; 1; 0; 1; 0; 1; 0; 1] (with_size 4 default_options).
Lemma asked_example :
  index32 default_config /\ modest builtin /\ callable pts (with_size 3 default_options) /\ callable pts wide_types /\
  asked (cluster_line pts (with_size 3 default_options) world0) = Some 36 /\ asked (cluster_line pts wide_types world0) = Some 48 /\
  asked (hier_line pts 2 false (new_clustering 12) world0) = Some 100 /\ asked (hier_line pts 2 false old3 (world_old (fun _ => false))) = Some 100 /\
  asked (check_line part3 type_options) = Some 6 /\ fits 64 48.
Proof.
  split; [by vm_compute|]. split; [apply builtin_modest|]. do 2 (split; [apply callable_by; by vm_compute|]). splits; by vm_compute.
Qed.
Lemma asked_stats_example : stats_callable pts old3 /\ (forall j, j < c_k old3 -> (N.of_nat (length (cluster old3 j)) <= 2 ^ 31)%N) /\
  asked (stats_line pts old3 (world_old (fun _ => false))) = Some 11.
Proof.
  split; [apply stats_example|]. split; [|by vm_compute]. intros j Hj. assert (length (cluster old3 j) <= 12); [|lia]. unfold cluster. etransitivity; [apply filter_length|]. by rewrite seq_length.
Qed.
