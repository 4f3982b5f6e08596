(** How much memory is asked for: no request is for more than [b] elements. *)

From stdpp Require Import prelude list.
From Coq Require Import NArith ZArith.
From Verif Require Import Base World Mem Float Options Spi Dist Digraph Nng Seeds Batch NngClustering Hier Util.

Section Asks.
Context (b : nat).

(** Every run asks for at most [b] elements at a time, and its result satisfies [Q]. *)
Definition askM {A} (Q : A -> Prop) (m : M A) : Prop := forall w a w', m w = Ok (a, w') -> Q a /\ w_most w' <= Nat.max (w_most w) b.
Definition anyv {A} (_ : A) : Prop := True.

Lemma ak_mono {A} (Q Q' : A -> Prop) m : askM Q m -> (forall a, Q a -> Q' a) -> askM Q' m.
Proof. intros H HQ w a w' E. destruct (H _ _ _ E). auto. Qed.
Lemma ak_any {A} (Q : A -> Prop) m : askM Q m -> askM anyv m.
Proof. intros H. by eapply ak_mono. Qed.
Lemma ak_ret {A} (Q : A -> Prop) a : Q a -> askM Q (Mret a).
Proof. intros HQ w a' w' [= <- <-]. split; [done|lia]. Qed.
Lemma ak_bad {A} (Q : A -> Prop) u : askM Q (Mbad u).
Proof. intros w a w' [=]. Qed.
Lemma ak_lift {A} (m : R A) : askM (fun a => m = Ok a) (lift m).
Proof. intros w a w' E. unfold lift in E. destruct m; [|done]. injection E as <- <-. split; [done|lia]. Qed.
Lemma ak_lift_last {A} (Q : A -> Prop) (m : R A) : (forall a, m = Ok a -> Q a) -> askM Q (lift m).
Proof. intros H. eapply ak_mono; [apply ak_lift|done]. Qed.
Lemma ak_bind {A C} (Q1 : A -> Prop) (Q : C -> Prop) m k : askM Q1 m -> (forall a, Q1 a -> askM Q (k a)) -> askM Q (Mbind m k).
Proof.
  intros Hm Hk w c w' E. unfold Mbind in E. destruct (m w) as [[a w1]|] eqn:E1; [|done]. destruct (Hm _ _ _ E1) as [H1 H2]. destruct (Hk a H1 _ _ _ E) as [H3 H4]. split; [done|lia].
Qed.
Lemma ak_get (Q : world -> Prop) : (forall w, Q w) -> askM Q (fun w => Ok (w, w)).
Proof. intros H w a w' [= <- <-]. split; [done|lia]. Qed.
Lemma ak_malloc n : n <= b -> askM anyv (malloc n).
Proof. intros H w a w' E. unfold malloc in E. destruct (w_fail w (w_next w)); injection E as <- <-; simpl; (split; [done|lia]). Qed.
Lemma ak_free p : askM anyv (free p).
Proof. intros w a w' E. unfold free in E. destruct p; [|injection E as <- <-; split; [done|lia]]. destruct (decide _); [|done]. injection E as <- <-. split; [done|simpl; lia]. Qed.
Lemma ak_realloc p n : n <= b -> askM anyv (realloc p n).
Proof.
  intros H w a w' E. unfold realloc in E. destruct p; [|by apply (ak_malloc n H w a w')]. destruct (decide _); [|done].
  destruct (w_fail w (w_next w)); injection E as <- <-; simpl; (split; [done|lia]).
Qed.
Lemma ak_set_err e : askM anyv (set_err e).
Proof. intros w a w' [= <- <-]. simpl. split; [done|lia]. Qed.
Lemma ak_forM {S} (I : S -> Prop) n i s f : I s -> (forall j s, I s -> askM I (f j s)) -> askM I (forM n i s f).
Proof.
  intros H0 Hf. unfold forM. revert i s H0. induction n as [|n IH]; intros i s H0 w a w' E; simpl in E.
  - injection E as <- <-. split; [done|lia].
  - destruct (f i s w) as [[s1 w1]|] eqn:E1; simpl in E; [|done]. destruct (Hf _ _ H0 _ _ _ E1) as [H1 H2]. destruct (IH _ _ H1 _ _ _ E) as [H3 H4]. split; [done|lia].
Qed.
Definition sumP {A B} (I : A -> Prop) (E : B -> Prop) (x : A + B) : Prop := match x with inl a => I a | inr e => E e end.
Lemma ak_loopM {S T} (I : S -> Prop) (X : T -> Prop) n i s (f : nat -> S -> M (S + T)) : I s -> (forall j s, I s -> askM (sumP I X) (f j s)) -> askM (sumP I X) (loopM n i s f).
Proof.
  intros H0 Hf. unfold loopM. revert i s H0. induction n as [|n IH]; intros i s H0 w a w' E; simpl in E.
  - injection E as <- <-. split; [done|lia].
  - destruct (f i s w) as [[[s1|t1] w1]|] eqn:E1; simpl in E; [| |done].
    + destruct (Hf _ _ H0 _ _ _ E1) as [H1 H2]. destruct (IH (Datatypes.S i) s1 H1 w1 a w' E) as [H3 H4]. split; [done|lia].
    + injection E as <- <-. by apply (Hf _ _ H0 _ _ _ E1).
Qed.

Lemma ak_make_error__ ec m f l : askM (fun e => e = ec) (make_error__ ec m f l).
Proof. unfold make_error__. eapply ak_bind; [apply ak_set_err|]. intros. by apply ak_ret. Qed.
Lemma ak_make_error ec f l : askM (fun e => e = ec) (make_error ec f l).
Proof. apply ak_make_error__. Qed.
Lemma ak_make_error_msg ec m f l : askM (fun e => e = ec) (make_error_msg ec m f l).
Proof. apply ak_make_error__. Qed.
Lemma ak_reset_error : askM anyv reset_error.
Proof. apply ak_set_err. Qed.
Lemma ak_malloc_arr A n : n <= b -> askM (fun r => forall a, r = Some a -> a_cells a = fresh A n) (malloc_arr A n).
Proof. intros H. unfold malloc_arr. eapply ak_bind; [by apply ak_malloc|]. intros [x|] _; apply ak_ret; intros a [= <-]. done. Qed.
Lemma ak_calloc_arr {A} n (x : A) : n <= b -> askM (fun r => forall a, r = Some a -> a_cells a = replicate n (Some x)) (calloc_arr n x).
Proof. intros H. unfold calloc_arr. eapply ak_bind; [by apply ak_malloc|]. intros [y|] _; apply ak_ret; intros a [= <-]. done. Qed.
Lemma ak_free_arr {A} (p : option (arr A)) : askM anyv (free_arr p).
Proof. apply ak_free. Qed.
Lemma ak_realloc_arr {A} (p : option (arr A)) n : n <= b -> askM anyv (realloc_arr p n).
Proof. intros H. unfold realloc_arr. eapply ak_bind; [by apply ak_realloc|]. intros. by apply ak_ret. Qed.
Create HintDb ask.
Hint Resolve ak_bad ak_free ak_set_err ak_make_error__ ak_make_error ak_make_error_msg ak_reset_error ak_free_arr : ask.

(** Solves [askM Q m] goals: sizes by [lia], results by [eauto]. *)
Ltac ask_ret := first [exact I | simpl; first [exact I | assumption | lia | by eauto]].
Ltac ask_leaf :=
  first [ solve [eauto 2 with ask nocore]
        | eapply ak_any; solve [eauto 2 with ask nocore]
        | eapply ak_malloc_arr; lia | eapply ak_calloc_arr; lia | eapply ak_realloc_arr; lia | eapply ak_malloc; lia
        | apply ak_lift ].
Ltac ask_last := first [ eapply ak_mono; [ask_leaf|let a := fresh in let H := fresh in intros a H; try exact I; try ask_ret] ].
Ltac ask_step :=
  match goal with
  | |- forall _, _ => intro
  | |- askM _ (let x := _ in _) => cbv zeta
  | |- askM _ (Mret _) => apply ak_ret; try ask_ret
  | |- askM _ (Mbad _) => apply ak_bad
  | |- askM _ (Mbind (match ?x with _ => _ end) _) => fail 1
  | |- askM _ (Mbind _ _) => eapply ak_bind; [ask_leaf|]
  | |- askM _ (match ?x with _ => _ end) => destruct x eqn:?
  | |- askM _ _ => ask_last
  end.
Ltac ask_all := repeat ask_step.

(** ** Graphs *)

Context (u : nat) (Hub : 20 * u + 4000 <= b).
Context (cfg : config) (Hpi : (pi_max cfg <= N.of_nat u)%N) (Hai : (ai_max cfg <= N.of_nat u)%N) (Hcl : (cl_max cfg <= N.of_nat u)%N) (Hu32 : (u32max <= N.of_nat u)%N).

Lemma wrapN_le m x : (N.of_nat (wrapN m x) <= m)%N.
Proof. unfold wrapN. rewrite N2Nat.id. pose proof (N.mod_lt (N.of_nat x) (m + 1)). lia. Qed.

Definition dgu (r : ecode * digraph) : Prop := dg_n r.2 <= u.

Lemma too_many_false a : too_many_arcs cfg a = false -> a <= u.
Proof. unfold too_many_arcs. intros H. apply orb_false_elim in H as [H _]. apply N.ltb_ge in H. lia. Qed.

Lemma ak_free_digraph dg : askM (fun d => dg_n d <= u) (free_digraph dg).
Proof. unfold free_digraph. ask_all. Qed.
Hint Resolve ak_free_digraph : ask.

Lemma ak_init_digraph v a : v <= u -> askM dgu (init_digraph cfg v a).
Proof.
  intros Hv. unfold init_digraph, dgu. destruct (too_many_arcs cfg a) eqn:E; [ask_all|]. pose proof (too_many_false _ E). ask_all.
Qed.
Lemma ak_empty_digraph v a : v <= u -> askM dgu (empty_digraph cfg v a).
Proof.
  intros Hv. unfold empty_digraph, dgu. destruct (too_many_arcs cfg a) eqn:E; [ask_all|]. pose proof (too_many_false _ E). ask_all.
Qed.
Lemma ak_change_arc_storage dg x : dg_n dg <= u -> askM dgu (change_arc_storage cfg dg x).
Proof.
  intros Hv. unfold change_arc_storage, dgu. destruct (too_many_arcs cfg x) eqn:E; [ask_all|]. pose proof (too_many_false _ E). ask_all.
Qed.

(** Uses a lemma for the first part of a sequence; what remains are the lemma's hypotheses and the rest. *)
Ltac ask_use L := eapply ak_bind; [eapply L; try lia|intros].
Ltac ask_end L Q := eapply ak_mono; [eapply L; try lia|unfold Q; simpl; try lia; auto].

Lemma ak_delete_loops dg : dg_n dg <= u -> askM dgu (delete_loops cfg dg).
Proof. intros H. unfold delete_loops. ask_all. by apply ak_change_arc_storage. Qed.

Lemma ak_union dgs ts keep : (forall d, d ∈ dgs -> dg_n d <= u) -> askM dgu (digraph_union_and_delete cfg dgs ts keep).
Proof.
  intros H. unfold digraph_union_and_delete. destruct dgs as [|d0 dgs]; [ask_all|]. assert (dg_n d0 <= u) as H0 by (apply H; left). cbv zeta.
  ask_step. intros ? _. ask_step. intros rm _. destruct rm as [rma|]; [|unfold dgu; ask_all].
  eapply ak_bind; [by apply ak_init_digraph|]. intros r Hr.
  eapply (ak_bind (fun r : ecode * digraph * markers => dg_n r.1.2 <= u)).
  { destruct (decide (r.1 <> ER_OK)); [|ask_all]. ask_step. intros ? _. ask_step. intros ? _. eapply ak_bind; [by apply ak_init_digraph|]. intros r2 Hr2. apply ak_ret. apply Hr2. }
  intros [[ec out] mk] Ho. simpl in Ho. destruct (decide (ec <> ER_OK)); [unfold dgu; ask_all|].
  ask_step. intros [[ct ot] oh] _. ask_step. intros ? _. eapply ak_bind; [by apply ak_change_arc_storage|]. intros [ec2 out2] H2. unfold dgu in *. simpl in H2. ask_all.
Qed.

Lemma ak_difference d1 d2 m : dg_n d1 <= u -> askM dgu (digraph_difference cfg d1 d2 m).
Proof.
  intros H. unfold digraph_difference. ask_step. intros e _. destruct e; [unfold dgu; ask_all|]. ask_step. intros [rma|] _; [|unfold dgu; ask_all].
  ask_step. intros [[h t] aw] _. ask_step. intros ? _. by apply ak_change_arc_storage.
Qed.

Lemma ak_transpose d : dg_n d <= u -> askM dgu (digraph_transpose cfg d).
Proof.
  intros H. unfold digraph_transpose. ask_step. intros t _. eapply ak_bind; [by apply ak_empty_digraph|]. intros [ec out] Ho. unfold dgu in *. simpl in Ho. ask_all.
Qed.

Lemma ak_product d1 d2 f : dg_n d1 <= u -> askM dgu (adjacency_product cfg d1 d2 f).
Proof.
  intros H0. unfold adjacency_product. cbv zeta. ask_step. intros rm _. destruct rm as [rma|]; [|unfold dgu; ask_all]. ask_step. intros gr _.
  eapply ak_bind; [by apply ak_init_digraph|]. intros r Hr.
  eapply (ak_bind (fun r : ecode * digraph * markers => dg_n r.1.2 <= u)).
  { destruct (decide (r.1 <> ER_OK)); [|ask_all]. ask_step. intros ? _. ask_step. intros ? _. eapply ak_bind; [by apply ak_init_digraph|]. intros r2 Hr2. apply ak_ret. apply Hr2. }
  intros [[ec out] mk] Ho. simpl in Ho. destruct (decide (ec <> ER_OK)); [unfold dgu; ask_all|].
  ask_step. intros [[ct ot] oh] _. ask_step. intros ? _. eapply ak_bind; [by apply ak_change_arc_storage|]. intros [ec2 out2] H2. unfold dgu in *. simpl in H2. ask_all.
Qed.

(** ** Seeds *)

Lemma forR_inv {A} (I : A -> Prop) n i (s : A) f s' : I s -> (forall j s s1, I s -> f j s = Ok s1 -> I s1) -> forR n i s f = Ok s' -> I s'.
Proof.
  intros H0 Hf. revert i s H0. induction n as [|n IH]; intros i s H0 E; simpl in E; [by injection E as <-|].
  destruct (f i s) as [s1|] eqn:E1; [|done]. simpl in E. eapply IH; [|exact E]. eauto.
Qed.
Lemma for_ptr_inv {A} (I : A -> Prop) lo hi (s : A) f s' : I s -> (forall j s s1, I s -> f j s = Ok s1 -> I s1) -> for_ptr lo hi s f = Ok s' -> I s'.
Proof. intros H0 Hf E. unfold for_ptr in E. destruct (decide _); [done|]. by eapply forR_inv. Qed.

(** All values of an array are at most [m]. *)
Definition arr_le (m : nat) (p : option (arr nat)) : Prop := forall i x, aget p i = Ok x -> x <= m.
Lemma aset_get {A} (p p' : option (arr A)) i x j y : aset p i x = Ok p' -> aget p' j = Ok y -> y = x \/ aget p j = Ok y.
Proof.
  unfold aset, aget, cset, cget. destruct p as [[bl c]|]; [|done]. simpl. destruct (decide (i < length c)) as [H|H]; simpl; [|done]. intros [= <-]. simpl.
  destruct (decide (i = j)) as [-> |Hij]; [rewrite list_lookup_insert by done; intros [= ->]; auto|]. rewrite list_lookup_insert_ne by done. auto.
Qed.
Lemma arr_le_set m p p' i x : arr_le m p -> x <= m -> aset p i x = Ok p' -> arr_le m p'.
Proof. intros H Hx E j y Hy. destruct (aset_get _ _ _ _ _ _ E Hy) as [-> |Hy']; [done|]. by eapply H. Qed.

Lemma ak_free_sort so : askM anyv (free_sort_result so).
Proof. unfold free_sort_result. ask_all. Qed.
Hint Resolve ak_free_sort : ask.

Lemma inc_pi_le x y : inc_pi cfg x = Ok y -> y <= u.
Proof. unfold inc_pi. destruct (N.leb_spec (N.of_nat (x + 1)) (pi_max cfg)); intros [= <-]. lia. Qed.

Lemma ak_sort_by_inwards dg mi : dg_n dg <= u -> askM anyv (sort_by_inwards cfg dg mi).
Proof.
  intros H. unfold sort_by_inwards. cbv zeta. eapply ak_bind; [eapply ak_calloc_arr; lia|]. intros ic Hic. ask_step. intros sv _.
  destruct (decide _); [ask_all|]. eapply (ak_bind (fun r : option (arr nat) * nat => r.2 <= u)).
  { apply ak_lift_last. intros [ic' mx] E. simpl.
    destruct (aget (dg_tail dg) (dg_n dg)) as [t|]; [|done]. simpl in E. destruct (for_ptr _ _ _ _) as [ic2|] eqn:E2; [|done]. simpl in E.
    assert (arr_le u ic2) as Hle.
    { eapply (for_ptr_inv (arr_le u)); [| |exact E2].
      - intros i x Hx. destruct ic as [a|]; [|done]. unfold aget, cget in Hx. rewrite (Hic a eq_refl) in Hx. destruct (decide (i < dg_n dg)) as [Hi|Hi].
        + rewrite lookup_replicate_2 in Hx by done. injection Hx as <-. lia.
        + rewrite lookup_ge_None_2 in Hx; [done|]. rewrite replicate_length. lia.
      - intros j s s1 Hs Ej. cbv beta in Ej. destruct (aget (dg_head dg) j) as [x|]; [|done]. simpl in Ej. destruct (aget s x) as [c|]; [|done]. simpl in Ej.
        destruct (inc_pi cfg c) as [c'|] eqn:Ec; [|done]. simpl in Ej. eapply arr_le_set; [exact Hs| |exact Ej]. by eapply inc_pi_le. }
    destruct (forR (dg_n dg) 0 0 _) as [mx2|] eqn:E3; [|done]. injection E as _ <-.
    eapply (forR_inv (fun m => m <= u)); [| |exact E3]; [lia|]. intros j s s1 Hs Ej. cbv beta in Ej. destruct (aget ic2 j) as [c|] eqn:Ea; [|done]. injection Ej as <-.
    destruct (decide _); [by eapply Hle|done]. }
  intros [ic' mx] Hmx. simpl in Hmx. ask_step. intros bc _. ask_step. intros bi _. destruct (decide _); [ask_all|].
  ask_step. intros bi' _. ask_step. intros ? _. eapply (ak_bind anyv). { destruct mi; ask_all. } intros vi _. destruct (decide _); [ask_all|].
  ask_step. intros [[sv2 vi2] bi2] _. destruct mi; ask_all.
Qed.

Lemma ak_add_seed s sr : sr_cap sr <= 2 * u + 1024 -> askM (fun r => sr_cap r.2 <= 2 * u + 1024) (add_seed cfg s sr).
Proof.
  intros H. unfold add_seed. destruct (N.of_nat (sr_count sr) =? cl_max cfg)%N; [ask_all|].
  eapply (ak_bind (fun r : ecode * seed_result => sr_cap r.2 <= 2 * u + 1024)).
  - destruct (decide _); [|ask_all]. cbv zeta. set (cap := if (cl_max cfg <? _)%N then _ else _).
    assert (cap <= u). { subst cap. destruct (N.ltb_spec (cl_max cfg) (N.of_nat (sr_cap sr + sr_cap sr / 8 + 1024))); lia. }
    ask_step. intros [p|] _; ask_all.
  - intros [ec sr'] Hs. simpl in Hs. destruct (decide _); [ask_all|]. ask_step. intros p _. apply ak_ret. done.
Qed.

Definition capu (r : ecode * seed_result) : Prop := sr_cap r.2 <= 2 * u + 1024.

Lemma ak_findseeds_lexical dg sr : dg_n dg <= u -> sr_cap sr <= 2 * u + 1024 -> askM capu (findseeds_lexical cfg dg sr).
Proof.
  intros Hd Hc. unfold capu, findseeds_lexical. ask_step. intros marks _. ask_step. intros seeds _. cbv zeta. destruct (decide _); [ask_all|].
  eapply ak_bind.
  - eapply (ak_loopM (fun s : option (arr bool) * seed_result => sr_cap s.2 <= 2 * u + 1024) capu); [done|].
    intros j [mk s] Hs. simpl in Hs. ask_step. intros c _. destruct c; [|by apply ak_ret]. eapply ak_bind; [by apply ak_add_seed|]. intros [ec s'] Hs'. simpl in Hs'. ask_all.
  - intros [[mk s]|r] Hr; simpl in Hr; unfold capu; ask_all.
Qed.

Lemma ak_findseeds_inwards dg up sr : dg_n dg <= u -> sr_cap sr <= 2 * u + 1024 -> askM capu (findseeds_inwards cfg dg up sr).
Proof.
  intros Hd Hc. unfold capu, findseeds_inwards. eapply ak_bind; [by apply ak_sort_by_inwards|]. intros [ec so] _. destruct (decide _); [ask_all|].
  ask_step. intros marks _. ask_step. intros seeds _. cbv zeta. destruct (decide _); [ask_all|].
  eapply ak_bind.
  - eapply (ak_loopM (fun s : option (arr bool) * seed_result * sort_result => sr_cap s.1.2 <= 2 * u + 1024) capu); [done|].
    intros j [[mk s] so'] Hs. simpl in Hs. unfold inwards_step. ask_step. intros v _. ask_step. intros c _. destruct c.
    + eapply ak_bind; [by apply ak_add_seed|]. intros [ec' s'] Hs'. simpl in Hs'. ask_all.
    + ask_all.
  - intros [[[mk s] so']|r] Hr; simpl in Hr; unfold capu; ask_all.
Qed.

Lemma ak_exclusion_graph dg ne : dg_n dg <= u -> askM dgu (exclusion_graph cfg dg ne).
Proof.
  intros Hd. unfold exclusion_graph. eapply ak_bind; [by apply ak_transpose|]. intros [ec tr] Htr. destruct (decide _); [unfold dgu; ask_all|].
  eapply ak_bind; [by apply ak_product|]. intros [ec' pr] Hpr. ask_step. intros ? _. destruct (decide _); [unfold dgu; ask_all|].
  eapply ak_bind; [apply ak_union|]. { intros d [-> |[-> |[]%elem_of_nil]%elem_of_cons]%elem_of_cons; [done|apply Hpr]. }
  intros [ec2 o] Ho. unfold dgu in *. simpl in Ho. ask_all.
Qed.

Lemma ak_findseeds_exclusion dg up sr : dg_n dg <= u -> sr_cap sr <= 2 * u + 1024 -> askM capu (findseeds_exclusion cfg dg up sr).
Proof.
  intros Hd Hc. unfold capu, findseeds_exclusion. cbv zeta. ask_step. intros ne _. destruct ne as [nea|]; [|ask_all]. ask_step. intros tmp _.
  eapply (ak_bind anyv). { destruct tmp; ask_all. } intros _ _. ask_step. intros [[ne tmp'] num] _.
  eapply (ak_bind anyv). { destruct (decide _); ask_all. } intros [tmp2 num2] _. ask_step. intros keep _.
  eapply ak_bind; [by apply ak_exclusion_graph|]. intros [ec ex] Hex. unfold dgu in Hex. simpl in Hex. destruct (decide _); [ask_all|].
  ask_step. intros _ _. eapply ak_bind; [by apply ak_sort_by_inwards|]. intros [ec' so] _. destruct (decide _); [ask_all|].
  ask_step. intros seeds _. destruct seeds as [sa|]; [|ask_all].
  eapply ak_bind.
  - eapply (ak_loopM (fun s : option (arr bool) * digraph * seed_result * sort_result => sr_cap s.1.2 <= 2 * u + 1024) capu); [done|].
    intros j [[[mk ex'] s] so'] Hs. simpl in Hs. unfold exclusion_step. ask_step. intros v _. ask_step. intros c _. destruct c; [|by apply ak_ret].
    eapply ak_bind; [by apply ak_add_seed|]. intros [ec2 s'] Hs'. simpl in Hs'. ask_all.
  - intros [[[[mk ex'] s] so']|r] Hr; simpl in Hr; unfold capu; ask_all.
Qed.

Lemma ak_find_seeds dg sm sr : dg_n dg <= u -> sr_cap sr <= 2 * u + 1024 -> askM anyv (find_seeds cfg dg sm sr).
Proof.
  intros Hd Hc. unfold find_seeds. eapply (ak_bind capu).
  - destruct sm; auto using ak_findseeds_lexical, ak_findseeds_inwards, ak_findseeds_exclusion; unfold capu; ask_all.
  - intros [ec sr'] Hs. unfold capu in Hs. simpl in Hs. destruct (decide (ec <> ER_OK)); [ask_all|]. destruct (decide (sr_count sr' < sr_cap sr' /\ 0 < sr_count sr')) as [[? ?]|]; ask_all.
Qed.

(** ** Nearest neighbour graphs *)

(** The provider asks for at most [b] elements if the numbers of search points and of
    neighbours given to it are at most [u]. *)
Record provider_asks (P : provider) : Prop := {
  pa_nn_init : forall d s, s.1 <= u -> askM anyv (p_nn_init P d s);
  pa_nn_search : forall o q k rad, k <= u -> askM anyv (p_nn_search P o q k rad);
  pa_nn_close : forall o, askM anyv (p_nn_close P o);
  pa_rows : forall d q c, askM anyv (p_rows P d q c);
  pa_matrix : forall d q, askM anyv (p_matrix P d q);
  pa_mx_init : forall d s, askM anyv (p_mx_init P d s);
  pa_mx_get : forall o q, askM anyv (p_mx_get P o q);
  pa_mx_close : forall o, askM anyv (p_mx_close P o)
}.

(** An array has at most [m] elements. *)
Definition alen {A} (m : nat) (p : option (arr A)) : Prop := exists a, p = Some a /\ length (a_cells a) <= m.
Lemma aset_len {A} m (p p' : option (arr A)) i x : alen m p -> aset p i x = Ok p' -> alen m p'.
Proof.
  unfold aset, cset. intros (a & -> & H). destruct (decide (i < length (a_cells a))); simpl; [|done]. intros [= <-]. eexists. split; [done|]. simpl. by rewrite insert_length.
Qed.
Lemma aset_some {A} (p p' : option (arr A)) i x : aset p i x = Ok p' -> is_Some p'.
Proof. unfold aset. destruct p as [[bl c]|]; [|done]. destruct (cset _ _ _); simpl; [|done]. intros [= <-]. eauto. Qed.
Lemma write_out_some {A} n (xs : list A) p p' : write_out n xs p = Ok p' -> is_Some p'.
Proof. unfold write_out. destruct p; [|done]. destruct (decide _); [|done]. intros [= <-]. eauto. Qed.
Lemma read_idx_len n c q : read_idx n (Some c) = Ok q -> q.1 = n /\ n <= length c.
Proof.
  unfold read_idx. destruct (forR n 0 [] _) as [l|] eqn:E; simpl; [|done]. intros [= <-]. split; [done|].
  assert (forall m i acc l, forR m i acc (fun i acc => let! x := cget c i in Ok (acc ++ [x])) = Ok l -> m = 0 \/ i + m <= length c) as Hf.
  { clear. induction m as [|m IH]; intros i acc l E; [auto|]. simpl in E. destruct (cget c i) as [x|] eqn:Ec; [|done]. simpl in E. apply IH in E.
    assert (i < length c). { unfold cget in Ec. destruct (c !! i) eqn:El; [|done]. by eapply lookup_lt_Some. } right. lia. }
  destruct (Hf _ _ _ _ E); lia.
Qed.

Context (P : provider) (HPA : provider_asks P).

Lemma ak_nn_init d n s : (s = None -> n <= u) -> (forall c, s = Some c -> n <= u \/ length c <= u) -> askM anyv (nn_init P d n s).
Proof.
  intros H1 H2. unfold nn_init. eapply ak_bind; [apply ak_lift|]. intros q Hq. apply (pa_nn_init _ HPA). destruct s as [c|].
  - apply read_idx_len in Hq as [-> ?]. destruct (H2 c eq_refl); lia.
  - injection Hq as <-. simpl. auto.
Qed.

Lemma ak_nn_search o n q k rad oq onn : k <= u ->
  askM (fun r => forall num ob out, r = Some (num, ob, out) -> forall bb, ob = Some bb -> is_Some bb) (nn_search P o n q k rad oq onn).
Proof.
  intros H. unfold nn_search. ask_step. intros qs _. eapply ak_bind; [by apply (pa_nn_search _ HPA)|]. intros [[ok nn]|] _; [|by apply ak_ret].
  ask_step. intros out _. eapply ak_bind; [apply ak_lift|]. intros ob Hob. apply ak_ret. intros num ob' out' [= <- <- <-] bb ->.
  destruct oq as [p|]; [|done]. destruct (write_out n ok p) as [p'|] eqn:E; [|done]. injection Hob as <-. by eapply write_out_some.
Qed.
Lemma ak_nn_close o : askM anyv (p_nn_close P o).
Proof. apply (pa_nn_close _ HPA). Qed.
Lemma ak_dist_rows d n q m c out : askM anyv (dist_rows P d n q m c out).
Proof. unfold dist_rows. ask_step. intros ? _. ask_step. intros ? _. eapply ak_bind; [apply (pa_rows _ HPA)|]. intros [x|] _; ask_all. Qed.
Lemma ak_dist_matrix d n q out : askM anyv (dist_matrix P d n q out).
Proof. unfold dist_matrix. ask_step. intros ? _. eapply ak_bind; [apply (pa_matrix _ HPA)|]. intros [x|] _; ask_all. Qed.
Lemma ak_mx_init d n s : askM anyv (mx_init P d n s).
Proof. unfold mx_init. ask_step. intros ? _. apply (pa_mx_init _ HPA). Qed.
Lemma ak_max_dist o n q oi od : askM anyv (max_dist P o n q oi od).
Proof. unfold max_dist. ask_step. intros ? _. eapply ak_bind; [apply (pa_mx_get _ HPA)|]. intros [[x y]|] _; ask_all. Qed.
Lemma ak_mx_close o : askM anyv (p_mx_close P o).
Proof. apply (pa_mx_close _ HPA). Qed.
Hint Resolve ak_nn_close ak_dist_rows ak_dist_matrix ak_mx_init ak_max_dist ak_mx_close : ask.

Definition nngp (rad : option double) (outq : option (arr nat)) (r : ecode * nat * option (arr nat) * digraph) : Prop :=
  dg_n r.2 <= u /\ (is_Some outq -> is_Some r.1.2).

Lemma ak_make_nng_from o n lenq q k rad outq : n <= u -> k <= u -> (is_Some rad -> outq = None -> lenq <= u) ->
  askM (nngp rad outq) (make_nng_from_search_object cfg P o n lenq q k rad outq).
Proof.
  intros Hn Hk Hl. unfold make_nng_from_search_object.
  eapply (ak_bind (fun a : option (option (arr nat) * option (arr nat)) => forall i d, a = Some (i, d) -> is_Some outq -> is_Some rad -> is_Some d)).
  { destruct rad as [r|]; [|apply ak_ret; intros i d [= <- <-] ? [? ?]; done]. destruct outq as [oa|]; [apply ak_ret; intros i d [= <- <-]; eauto|].
    assert (lenq <= u) by eauto. ask_step. intros [x|] _; apply ak_ret; intros i d [= <- <-]; eauto. }
  intros [[internal dist_out]|] Ha; [|ask_step; intros ec _; apply ak_ret; split; simpl; [lia|done]]. specialize (Ha _ _ eq_refl).
  eapply ak_bind; [by apply ak_init_digraph|]. intros [ec nng] Hd. unfold dgu in Hd. simpl in Hd.
  destruct (decide (ec <> ER_OK)). { ask_step. intros _ _. by apply ak_ret. }
  eapply ak_bind; [by apply ak_nn_search|]. intros [[[num ob] head]|] Hs.
  2:{ ask_step. intros _ _. ask_step. intros d' Hd'. ask_step. intros ec' _. by apply ak_ret. }
  cbv zeta. ask_step. intros tail _. ask_step. intros _ _.
  set (outq' := match internal with Some _ => outq | None => _ end).
  assert (is_Some outq -> is_Some outq') as Ho.
  { intros Hi. subst outq'. destruct internal; [done|]. destruct rad as [r|]; [|done]. destruct ob as [bb|]; [by eapply Hs|]. apply Ha; eauto. }
  destruct (decide (num < lenq)); [|by apply ak_ret].
  eapply ak_bind; [by apply ak_change_arc_storage|]. intros [ec2 nng2] H2. unfold dgu in H2. simpl in H2. destruct (decide _); [|by apply ak_ret].
  ask_step. intros d' Hd'. by apply ak_ret.
Qed.

Lemma ak_make_nng ds n lens s lenq q k rad outq : n <= u -> k <= u -> (is_Some rad -> outq = None -> lenq <= u) ->
  (s = None -> lens <= u) -> (forall c, s = Some c -> lens <= u \/ length c <= u) ->
  askM (nngp rad outq) (make_nng cfg P ds n lens s lenq q k rad outq).
Proof.
  intros Hn Hk Hl H1 H2. unfold make_nng. eapply ak_bind; [by apply ak_nn_init|]. intros [o|] _; [|ask_step; intros ec _; apply ak_ret; split; simpl; [lia|done]].
  eapply ak_bind; [by apply ak_make_nng_from|]. intros [[[ec num] outq'] nng] [H3 H4]. simpl in H3, H4.
  destruct (decide _). { ask_step. intros _ _. by apply ak_ret. } ask_step. intros [] _; [by apply ak_ret|]. ask_step. intros d' Hd'. ask_step. intros ec' _. by apply ak_ret.
Qed.

Lemma self_match_n v nng nng' : self_match_one v nng = Ok nng' -> dg_n nng' = dg_n nng.
Proof.
  unfold self_match_one. destruct (aget (dg_tail nng) v) as [lo|]; simpl; [|done]. destruct (aget _ _) as [hi|]; simpl; [|done].
  destruct (decide _); [by intros [= <-]|]. destruct (loop_ptr _ _ _ _) as [[?|?]|]; simpl; [| |done]; [|by intros [= <-]].
  destruct (aset _ _ _); simpl; [|done]. by intros [= <-].
Qed.
Lemma ensure_n nng lens s nng' : dg_n nng <= u -> ensure_self_match nng lens s = Ok nng' -> dg_n nng' <= u.
Proof.
  intros H E. unfold ensure_self_match in E. destruct s as [c|]; eapply (forR_inv (fun d => dg_n d <= u)); [exact H| |exact E|exact H| |exact E].
  - intros j d d1 Hd Ej. cbv beta in Ej. destruct (cget c j); [|done]. simpl in Ej. apply self_match_n in Ej. lia.
  - intros j d d1 Hd Ej. cbv beta in Ej. apply self_match_n in Ej. lia.
Qed.
Lemma ak_finish nng : askM anyv (finish_nng cfg nng).
Proof. unfold finish_nng. ask_all. Qed.

Lemma ak_get_nng_size ds n size lp prim rad : n <= u -> size <= u -> (is_Some prim -> lp <= u) ->
  askM anyv (get_nng_with_size_constraint cfg P ds n size lp prim rad).
Proof.
  intros Hn Hs Hp. unfold get_nng_with_size_constraint. cbv zeta. eapply ak_bind.
  { apply ak_make_nng; auto. intros _ _. destruct prim; [|done]. apply Hp. eauto. }
  intros [[[ec num] outq'] nng] [H3 _]. simpl in H3. destruct (decide _); [ask_all|]. ask_step. intros e _. destruct e; [ask_all|].
  eapply ak_bind; [apply ak_lift|]. intros nng' Hn'. apply ensure_n in Hn'; [|done].
  eapply ak_bind; [by apply ak_delete_loops|]. intros [ec2 nng2] _. destruct (decide _); [ask_all|]. eapply ak_bind; [apply ak_finish|]. intros ? _. by apply ak_ret.
Qed.

Lemma ak_free_tc tc : askM anyv (free_tc tc).
Proof. unfold free_tc. ask_all. Qed.
Hint Resolve ak_free_tc ak_finish : ask.

Lemma ak_get_type_count n size nt tcons tl : n <= u -> nt <= u -> askM (fun r => r.1 = ER_OK -> alen u (tc_store r.2)) (get_type_count n size nt tcons tl).
Proof.
  intros Hn Ht. unfold get_type_count. ask_step. intros gs _. eapply ak_bind; [apply ak_malloc_arr; lia|]. intros ps Hps. ask_step. intros tg _. cbv zeta.
  destruct gs as [ga|]; [|ask_step; intros _ _; eapply ak_bind; [apply ak_make_error|]; intros ec ->; by apply ak_ret].
  destruct ps as [pa|]; [|ask_step; intros _ _; eapply ak_bind; [apply ak_make_error|]; intros ec ->; by apply ak_ret].
  destruct tg as [ta|]; [|ask_step; intros _ _; eapply ak_bind; [apply ak_make_error|]; intros ec ->; by apply ak_ret].
  assert (alen u (Some pa)) as Hlen. { eexists. split; [done|]. rewrite (Hps pa eq_refl). unfold fresh. rewrite replicate_length. lia. }
  ask_step. intros gs' _. ask_step. intros [sum|] _; [|ask_step; intros _ _; eapply ak_bind; [apply ak_make_error_msg|]; intros ec ->; by apply ak_ret].
  destruct (decide _); [ask_step; intros _ _; eapply ak_bind; [apply ak_make_error_msg|]; intros ec ->; by apply ak_ret|].
  ask_step. intros tg' _. eapply ak_bind; [apply ak_lift|]. intros [ps' tg2] E. apply ak_ret. intros _. simpl.
  change (alen u (ps', tg2).1). eapply (forR_inv (fun s : option (arr nat) * option (arr nat) => alen u s.1)); [| |exact E]; [done|].
  intros j [p t] [p1 t1] Hp Ej. simpl in *. destruct (lget tl j) as [l|]; simpl in Ej; [|done]. destruct (aget t l) as [x|]; simpl in Ej; [|done].
  destruct (decide _); [done|]. destruct (aset t l _) as [t2|]; simpl in Ej; [|done]. destruct (aset p _ j) as [p2|] eqn:E2; simpl in Ej; [|done]. injection Ej as <- <-.
  by eapply aset_len.
Qed.

Definition dgs_le (p : option (arr digraph)) : Prop := forall i d, aget p i = Ok d -> dg_n d <= u.
Lemma dgs_le_set p p' i d : dgs_le p -> dg_n d <= u -> aset p i d = Ok p' -> dgs_le p'.
Proof. intros H Hd E j y Hy. destruct (aset_get _ _ _ _ _ _ E Hy) as [-> |Hy']; [done|]. by eapply H. Qed.

Definition tsok (rad : option double) (s : nat * option (arr nat) * option (arr digraph) * nat) : Prop :=
  (is_Some rad -> is_Some s.1.1.2) /\ dgs_le s.1.2.

Lemma ak_type_step ds n tcons tc prim rad i s : n <= u -> Forall (fun c => c <= u) tcons -> alen u (tc_store tc) -> tsok rad s ->
  askM (sumP (tsok rad) (fun es => es.1 <> ER_OK)) (type_step cfg P ds n tcons tc prim rad i s).
Proof.
  intros Hn Hc Hst. destruct s as [[[nq seedable] nbt] nz]. intros [H1 H2]. simpl in H1, H2. unfold type_step.
  eapply ak_bind; [apply ak_lift|]. intros c Ec. assert (c <= u) as Hcu.
  { unfold lget in Ec. destruct (tcons !! i) eqn:E; [|done]. injection Ec as <-. rewrite Forall_lookup in Hc. by eapply Hc. }
  destruct (decide _); [|by apply ak_ret]. ask_step. intros gs _. ask_step. intros go _. cbv zeta.
  eapply ak_bind.
  { apply ak_make_nng; auto.
    - intros Hr ->. destruct (H1 Hr). done.
    - destruct Hst as (a & -> & _). done.
    - destruct Hst as (a & -> & Ha). intros c' [= <-]. right. rewrite drop_length. lia. }
  intros [[[ec num] sd] nng] [H3 H4]. simpl in H3, H4. destruct (decide _); [by apply ak_ret|].
  eapply ak_bind; [apply ak_lift|]. intros nbt1 E1. ask_step. intros e _. destruct e. { eapply ak_bind; [apply ak_make_error_msg|]. intros ec' ->. by apply ak_ret. }
  eapply ak_bind; [apply ak_lift|]. intros nng' E2. apply ensure_n in E2; [|done]. eapply ak_bind; [apply ak_lift|]. intros nbt2 E3.
  apply ak_ret. split; simpl; [auto|]. eapply dgs_le_set; [|exact E2|exact E3]. exact (dgs_le_set _ _ _ _ H2 H3 E1).
Qed.

Lemma ak_loopM_any {S T} n i (s : S) (f : nat -> S -> M (S + T)) : (forall j s, askM anyv (f j s)) -> askM anyv (loopM n i s f).
Proof. intros H. eapply ak_any, (ak_loopM anyv anyv); [done|]. intros j s' _. eapply ak_mono; [apply H|]. by intros [?|?]. Qed.

Lemma ak_free_dgs nbt nz : askM anyv (free_dgs nbt nz).
Proof. unfold free_dgs. apply ak_forM; [done|]. intros. ask_all. Qed.
Hint Resolve ak_free_dgs : ask.

Lemma read_dgs_le nbt nz l : dgs_le nbt -> read_dgs nbt nz = Ok l -> forall d, d ∈ l -> dg_n d <= u.
Proof.
  intros H E. unfold read_dgs in E. change ((fun l => forall d, d ∈ l -> dg_n d <= u) l). eapply (forR_inv _); [| |exact E]; [intros d []%elem_of_nil|].
  intros j s s1 Hs Ej d. cbv beta in Ej. destruct (aget nbt j) as [x|] eqn:Ex; simpl in Ej; [|done]. injection Ej as <-.
  intros [Hd|Hd%elem_of_list_singleton]%elem_of_app; [auto|]. subst. by eapply H.
Qed.

Lemma ak_add_general ds n size sum prim rad nq seedable out : n <= u -> size <= u -> dg_n out <= u -> (is_Some rad -> is_Some seedable) ->
  askM anyv (add_general_nn cfg P ds n size sum prim rad nq seedable out).
Proof.
  intros Hn Hs Ho Hsd. unfold add_general_nn. eapply ak_bind.
  { apply ak_make_nng; auto. intros Hr ->. destruct (Hsd Hr). done. }
  intros [[[ec num] sd] nng] [H3 H4]. simpl in H3, H4. destruct (decide _); [ask_all|]. cbv zeta. ask_step. intros e _.
  eapply (ak_bind dgu). { destruct e; [unfold dgu; ask_all|]. by apply ak_difference. }
  intros [ec1 nng1] H5. unfold dgu in H5. simpl in H5. eapply (ak_bind anyv).
  { destruct (decide _); [|ask_all]. ask_step. intros ts _. eapply ak_any, ak_union. intros d [-> |[-> |[]%elem_of_nil]%elem_of_cons]%elem_of_cons; done. }
  intros [ec2 new] _. ask_all.
Qed.

Lemma ak_get_nng_type ds n size nt tcons tl lp prim rad : n <= u -> size <= u -> nt <= u -> Forall (fun c => c <= u) tcons -> (is_Some prim -> lp <= u) ->
  askM anyv (get_nng_with_type_constraint cfg P ds n size nt tcons tl lp prim rad).
Proof.
  intros Hn Hs Ht Htc Hp. unfold get_nng_with_type_constraint. cbv zeta. set (nq := match prim with None => n | Some _ => lp end).
  assert (nq <= u) as Hnq. { subst nq. destruct prim; eauto. }
  eapply (ak_bind (fun a : option (option (arr nat)) => forall s, a = Some s -> is_Some rad -> is_Some s)).
  { destruct rad as [r|]; [|apply ak_ret; intros s _ [? ?]; done]. ask_step. intros [s|] _; [|by apply ak_ret]. eapply ak_bind; [apply ak_lift|].
    intros s' E. apply ak_ret. intros ? [= <-] _. eapply (forR_inv is_Some); [| |exact E]; [eauto|]. intros j s0 s1 Hs0 Ej. cbv beta in Ej.
    destruct prim as [p|]; [destruct (lget p j); [|done]|]; simpl in Ej; by eapply aset_some. }
  intros [sd|] Hsd; [|ask_all]. specialize (Hsd _ eq_refl). eapply ak_bind; [apply ak_malloc_arr; lia|]. intros [na|] Hna; [|ask_all]. specialize (Hna _ eq_refl).
  eapply ak_bind; [by apply ak_get_type_count|]. intros [ec tc] Htcs. simpl in Htcs. destruct (decide (ec <> ER_OK)) as [|Hec]; [ask_all|].
  assert (alen u (tc_store tc)) as Hst by (apply Htcs; by destruct (decide (ec = ER_OK))).
  eapply ak_bind.
  { apply (ak_loopM (tsok rad) (fun es => es.1 <> ER_OK)).
    - split; [done|]. intros i d Hd. simpl in Hd. unfold aget, cget in Hd. rewrite Hna in Hd. unfold fresh in Hd. destruct (decide (i < nt)).
      + by rewrite lookup_replicate_2 in Hd.
      + rewrite lookup_ge_None_2 in Hd; [done|]. rewrite replicate_length. lia.
    - intros j s Hj. by apply ak_type_step. }
  intros r Hr. assert (exists ec1 s1, match r with inl s => (ER_OK, s) | inr es => es end = (ec1, s1) /\ (ec1 = ER_OK -> tsok rad s1)) as (ec1 & s1 & Em & Hs1).
  { destruct r as [s1|[ec1 s1]]; eexists _, _; (split; [done|]); simpl in Hr; auto. by intros ->. }
  rewrite Em. clear Em. destruct s1 as [[[nq1 sd1] nbt1] nz1]. ask_step. intros _ _.
  eapply (ak_bind (fun r : ecode * digraph => r.1 = ER_OK -> dg_n r.2 <= u /\ ec1 = ER_OK)).
  { destruct (decide (ec1 = ER_OK)) as [He|]; [|by apply ak_ret]. destruct (Hs1 He) as [_ H2]. ask_step. intros ts _. eapply ak_bind; [apply ak_lift|]. intros dgs E.
    eapply ak_mono; [apply ak_union; exact (read_dgs_le _ _ _ H2 E)|]. intros a Ha _. split; done. }
  intros [ec2 out] Ho. simpl in Ho. ask_step. intros _ _. ask_step. intros _ _. destruct (decide (ec2 <> ER_OK)) as [|He2]; [ask_all|].
  destruct Ho as [Ho He1]; [by destruct (decide (ec2 = ER_OK))|]. destruct (Hs1 He1) as [H1 _]. simpl in H1.
  destruct (decide _); [|ask_all]. eapply ak_bind; [by apply ak_add_general|]. intros [ec3 out3] _. ask_all.
Qed.

(** ** From the graph to the clustering *)

Lemma ak_estimate ds sr nng size : size <= u -> askM anyv (estimate_avg_seed_dist P ds sr nng size).
Proof.
  intros H. unfold estimate_avg_seed_dist. cbv zeta. ask_step. intros [sa|] _; [|ask_all].
  eapply ak_bind.
  - apply ak_loopM_any. intros j [[sampled sum] sc]. ask_all.
  - intros r _. ask_all.
Qed.

Lemma ak_assign_by_nng cl nng : c_n cl <= u -> askM (fun r => c_n r.1 = c_n cl) (assign_by_nng cfg cl nng).
Proof. intros H. unfold assign_by_nng. cbv zeta. ask_all. Qed.

Lemma ak_assign_by_nn_search cl o num ta rad : num <= u -> askM (fun r => c_n r.1.2 = c_n cl) (assign_by_nn_search P cl o num ta rad).
Proof.
  intros H. unfold assign_by_nn_search. ask_step. intros onn _. pose proof Hub. eapply ak_bind; [apply ak_nn_search; unfold u32max in Hu32; lia|]. intros [[[num' ob] onn']|] _; ask_all.
Qed.

Lemma collect_le lab len h ta r : collect_unassigned cfg lab len h ta = Ok r -> r.2 <= len.
Proof.
  unfold collect_unassigned. intros E.
  assert (forall n i ta num r, forR n i (ta, num) (fun i '(ta, num) => let! p := h i in let! ta := aset ta num p in let! l := aget lab p in
     Ok (ta, num + (if decide (l = cl_na cfg) then 1 else 0))) = Ok r -> r.2 <= num + n) as Hf.
  { clear. induction n as [|n IH]; intros i ta num r E; simpl in E; [injection E as <-; simpl; lia|].
    destruct (h i) as [p|]; simpl in E; [|done]. destruct (aset ta num p) as [ta1|]; simpl in E; [|done]. destruct (aget lab p) as [l|]; simpl in E; [|done].
    apply IH in E. destruct (decide _); lia. }
  apply Hf in E. lia.
Qed.

Lemma ak_close_opt o : askM anyv (close_opt P o).
Proof. unfold close_opt. destruct o; ask_all. Qed.
Hint Resolve ak_close_opt : ask.

Lemma ak_assign_stage cl um oa os num ta rad : num <= u -> askM (fun r => c_n r.1.2 = c_n cl) (assign_stage P cl um oa os num ta rad).
Proof. intros H. unfold assign_stage. ask_all; try by apply ak_assign_by_nn_search. Qed.

Lemma ak_assign_rest cl total um1 rad1 lp prim um2 rad2 sn oa os : c_n cl <= u -> (is_Some prim -> lp <= u) ->
  askM anyv (assign_rest cfg P cl total um1 rad1 lp prim um2 rad2 sn oa os).
Proof.
  intros H Hp. unfold assign_rest. cbv zeta. destruct (decide _); [ask_all|]. ask_step. intros [ta|] _; [|ask_all].
  eapply (ak_bind (fun r : option (arr nat) * nat => r.2 <= u)).
  { apply ak_lift_last. intros r E. destruct prim as [p|]; apply collect_le in E; [|lia]. assert (lp <= u) by eauto. lia. }
  intros [ta1 num] Hnum. simpl in Hnum. eapply ak_bind; [by apply ak_assign_stage|]. intros [[ec cl1] ta2] H1. simpl in H1. destruct (decide _); [ask_all|].
  eapply (ak_bind anyv).
  { destruct (decide (um2 <> UM_IGNORE)); [|ask_all]. eapply ak_bind; [apply ak_lift|]. intros [ta3 num2] E. apply collect_le in E. simpl in E.
    eapply ak_bind; [apply ak_assign_stage; lia|]. intros [[ec2 cl2] ta4] _. ask_all. }
  intros [cl3 ta5] _. ask_all.
Qed.

Lemma ak_assign_search ds cl sr nas total um1 rad1 lp prim um2 rad2 sn : c_n cl <= u -> (is_Some prim -> lp <= u) -> nas <= u -> sr_count sr <= u ->
  askM anyv (assign_search cfg P ds cl sr nas total um1 rad1 lp prim um2 rad2 sn).
Proof.
  intros H Hp Hn Hc. unfold assign_search. eapply (ak_bind anyv).
  { destruct (uses _ _ _); [|ask_all]. eapply ak_bind; [apply ak_nn_init; auto|]. intros [o|] _; ask_all. }
  intros [ec oa] _. destruct (decide _); [ask_all|]. eapply (ak_bind anyv).
  { destruct (uses _ _ _); [|ask_all]. eapply ak_bind; [apply ak_nn_init; auto|]. intros [o|] _; ask_all. }
  intros [ec2 os] _. destruct (decide _); [ask_all|]. by apply ak_assign_rest.
Qed.

Lemma ak_make_clusters cl ds sr nng ord um1 rad1 lp prim um2 rad2 : c_n cl <= u -> (is_Some prim -> lp <= u) -> sr_count sr <= u ->
  (forall r, assign_seeds_and_neighbors cfg cl sr nng = Ok r -> c_n r.1 <= u /\ r.2 <= u) ->
  askM anyv (make_nng_clusters_from_seeds cfg P cl ds sr nng ord um1 rad1 lp prim um2 rad2).
Proof.
  intros H Hp Hc Ha. unfold make_nng_clusters_from_seeds. eapply ak_bind; [apply ak_lift|]. intros r Hr. apply Ha in Hr as [H1 H2]. destruct r as [cl1 nas]. simpl in H1, H2. cbv zeta.
  destruct (is_done _ _ _ _); [ask_all|]. eapply (ak_bind anyv).
  { destruct (uses _ _ _); [|ask_all]. ask_step. intros [sn|] _; ask_all. }
  intros [sn|] _; [|ask_all]. eapply (ak_bind (fun r : clustering * nat * unassigned_method * bool => c_n r.1.1.1 <= u)).
  { destruct (decide _); [|ask_all]. eapply ak_bind; [by apply ak_assign_by_nng|]. intros [cl2 num] H3. simpl in H3. apply ak_ret. simpl. lia. }
  intros [[[cl2 total] um1'] bn] H3. simpl in H3. destruct (_ && _)%bool; [ask_all|]. ask_step. intros nng' _.
  eapply ak_bind; [by apply ak_assign_search|]. intros [ec cl3] _. ask_all.
Qed.

(** ** Batches *)

Lemma ak_batches cl ds size um rad lp prim bs : c_n cl <= u -> size <= u -> askM anyv (nng_clustering_batches cfg P cl ds size um rad lp prim bs).
Proof.
  intros Hn Hs. unfold nng_clustering_batches. cbv zeta.
  repeat (match goal with |- askM _ (if ?x then _ else _) => destruct x; [ask_all; fail|] end).
  set (batch := if (N.of_nat (c_n cl) <? _)%N then _ else _).
  assert (batch <= u) as Hb. { subst batch. destruct (N.ltb_spec (N.of_nat (c_n cl)) (if decide (bs = 0) then u32max else N.of_nat bs)); lia. }
  eapply ak_bind; [by apply ak_nn_init|]. intros [o|] _; [|ask_all]. ask_step. intros bi _. pose proof (wrapN_le u32max (size * batch)).
  ask_step. intros out _. ask_step. intros asg _.
  assert (askM anyv (let* _ := free_arr bi in let* _ := free_arr out in let* _ := free_arr asg in let* _ := p_nn_close P o in Mret tt)) as Hclean by ask_all.
  destruct bi as [bia|]; [|eapply ak_bind; [exact Hclean|]; intros; ask_all]. destruct out as [oa|]; [|eapply ak_bind; [exact Hclean|]; intros; ask_all].
  destruct asg as [aa|]; [|eapply ak_bind; [exact Hclean|]; intros; ask_all]. eapply (ak_bind anyv).
  { destruct (c_label cl); ask_all. }
  intros [cl1|] _; [|eapply ak_bind; [exact Hclean|]; intros; ask_all]. eapply (ak_bind anyv). { destruct prim; ask_all. }
  intros tmp _. eapply (ak_bind anyv).
  { unfold run_batches. eapply ak_bind.
    - apply ak_loopM_any. intros j [[[[[[curr sd] next] lab] bi] out] asg]. unfold batch_iter. destruct (decide (curr < c_n cl1)); [|ask_all]. ask_step. intros [[[c2 nb] lab2] bi2] _.
      destruct (decide (nb = 0)); [ask_all|]. eapply ak_bind; [by apply ak_nn_search|]. intros [[[num bi3] out2]|] _; [|ask_all]. ask_all.
    - intros r _. ask_all. eapply ak_bind with (Q1 := anyv); [destruct b0; ask_all|]. intros; ask_all. }
  intros [[[[ec cl2] bi2] out2] as2] _. ask_all.
Qed.
Lemma ak_check_options opt n : askM anyv (check_cluster_options opt n).
Proof using.
  destruct opt as [o|]; [|apply ak_bad]. unfold check_cluster_options. cbv zeta. do 3 (destruct (decide _); [ask_all|]).
  eapply ak_bind with (Q1 := anyv); [ask_all|]. intros r _. ask_all.
Qed.

(** ** Hierarchical clustering *)

Context (qs : world -> list (nat * double) -> list (nat * double)) (log2cap : nat -> nat -> nat) (Hlog : forall c n, n <= u -> log2cap c n <= 64 * c).

Lemma ak_loopM_idx {S T} (I : nat -> S -> Prop) n i s (f : nat -> S -> M (S + T)) : I i s ->
  (forall j s, i <= j < i + n -> I j s -> askM (sumP (I (j + 1)) anyv) (f j s)) -> askM anyv (loopM n i s f).
Proof.
  intros H0 Hf. unfold loopM. revert i s H0 Hf. induction n as [|n IH]; intros i s H0 Hf w a w' E; simpl in E.
  - injection E as <- <-. split; [done|lia].
  - destruct (f i s w) as [[[s1|t1] w1]|] eqn:E1; simpl in E; [| |done].
    + destruct (Hf i s ltac:(lia) H0 _ _ _ E1) as [H1 H2]. simpl in H1. rewrite Nat.add_1_r in H1.
      destruct (IH (Datatypes.S i) s1 H1 (fun j s Hj => Hf j s ltac:(lia)) w1 a w' E) as [H3 H4]. split; [done|lia].
    + injection E as <- <-. split; [done|]. by apply (Hf i s ltac:(lia) H0 _ _ _ E1).
Qed.

Lemma ak_find_centers it ds h : askM anyv (find_centers cfg P it ds h).
Proof.
  unfold find_centers. ask_step. intros [it1 mk1] _. cbv zeta. ask_step. intros [p1 mk2] _. ask_step. intros [ob|] _; [|ask_all].
  eapply ak_bind with (Q1 := anyv).
  { apply ak_loopM_any. intros j [[[[[[? ?] ?] ?] ?] ?] ?]. unfold centers_iter. destruct (decide _); [|ask_all]. ask_step. intros [[? ?]|] _; ask_all. }
  intros [?|[[[[[[[? ?] ?] ?] ?] ?] ?]|]] _; ask_all.
Qed.

Lemma ak_populate it ds c1 c2 h : askM anyv (populate_edge_lists P qs it ds c1 c2 h).
Proof.
  unfold populate_edge_lists. ask_step. intros [dd|] _; [|ask_all]. eapply ak_bind; [apply (ak_get anyv); done|]. intros; ask_all.
Qed.

Lemma ak_break it ds k batch h : askM anyv (break_cluster cfg P qs it ds k batch h).
Proof.
  unfold break_cluster. eapply ak_bind; [apply ak_find_centers|]. intros [[[ec cc] it'] h'] _. destruct (decide _); [ask_all|]. destruct cc as [[c1 c2]|]; [|ask_all].
  eapply ak_bind; [apply ak_populate|]. intros [ec2 h2] _. ask_all.
Qed.

Lemma ak_check_capacity s : s_items s <= 6 * u + 4 -> askM (fun r => s_items r.2 = s_items s) (check_capacity s).
Proof.
  intros H. unfold check_capacity. destruct (decide _) as [E|]; [|by apply ak_ret].
  destruct (_ <? _)%N; [ask_all|]. pose proof (Nat.div_le_upper_bound (s_cap s) 16 (s_cap s)). eapply ak_bind; [apply ak_realloc_arr; lia|]. intros [a|] _; ask_all.
Qed.

Lemma ak_run_step ds k batch s lab cur h m : s_items s <= m -> m <= 6 * u + 4 ->
  askM (sumP (fun st => s_items st.1.1.1 <= m + 1) anyv) (run_step cfg P qs ds k batch (s, lab, cur, h)).
Proof.
  intros Hm Hu. unfold run_step. destruct (decide _); [|ask_all]. eapply ak_bind; [apply ak_check_capacity; lia|]. intros [ec s1] Hs. simpl in Hs.
  destruct (decide _); [ask_all|]. ask_step. intros it _. destruct (decide _).
  - destruct (decide _); [|apply ak_ret; simpl; lia]. destruct (decide _); [ask_all|]. ask_step. intros lab' _. apply ak_ret. simpl. lia.
  - eapply ak_bind; [apply ak_break|]. intros [[ec2 [[i1 i2]|]] h2] _; [|ask_all]. ask_step. intros a _. apply ak_ret. simpl. lia.
Qed.

Lemma ak_hi_run cl ds k batch s h : c_n cl <= u -> s_items s <= u + 1 -> askM anyv (hi_run cfg P qs cl ds k batch s h).
Proof.
  intros Hn Hs. unfold hi_run. eapply ak_bind.
  { apply (ak_loopM_idx (fun j st => s_items st.1.1.1 <= s_items s + j)); [simpl; lia|]. intros j [[[s1 lab] cur] h1] Hj H1. simpl in H1.
    eapply ak_mono; [apply (ak_run_step _ _ _ _ _ _ _ (s_items s + j)); lia|]. intros [[[[? ?] ?] ?]|?]; simpl; [lia|done]. }
  intros [?|[ec [[[s1 lab] cur] h1]]] _; ask_all.
Qed.

Lemma ak_empty_stack n : n <= u -> askM (fun r => forall s st, r.2 = Some (s, st) -> s_items s = 1) (empty_cl_stack log2cap n).
Proof.
  intros Hn. unfold empty_cl_stack. cbv zeta. pose proof (Hlog 20 n Hn). eapply ak_bind; [apply ak_malloc_arr; lia|]. intros cls _. eapply ak_bind; [apply ak_malloc_arr; lia|]. intros st _.
  destruct cls, st; ask_all; match goal with H : (_, _).2 = Some _ |- _ => simpl in H; try discriminate H; injection H as <- <-; reflexivity end.
Qed.

(** Sizes of the items of the stack. *)
Definition sizes_le (m : nat) (cls : option (arr hitem)) : Prop := forall i it, aget cls i = Ok it -> hi_size it <= m.
Lemma sizes_set m cls cls' i it : sizes_le m cls -> hi_size it <= m -> aset cls i it = Ok cls' -> sizes_le m cls'.
Proof. intros H Hx E j y Hy. destruct (aset_get _ _ _ _ _ _ E Hy) as [-> |Hy']; [done|]. by eapply H. Qed.

Lemma forR_idx {A} (I : nat -> A -> Prop) n i (s : A) f s' : I i s -> (forall j s s1, I j s -> f j s = Ok s1 -> I (j + 1) s1) -> forR n i s f = Ok s' -> I (i + n) s'.
Proof.
  intros H0 Hf. revert i s H0. induction n as [|n IH]; intros i s H0 E; simpl in E; [rewrite Nat.add_0_r; by injection E as <-|].
  destruct (f i s) as [s1|] eqn:E1; [|done]. simpl in E. replace (i + S n) with (S i + n) by lia. eapply IH; [|exact E]. rewrite <- Nat.add_1_r. eauto.
Qed.

Lemma ak_init_stack cl : c_n cl <= u -> c_k cl <= u ->
  askM (fun r => forall s st big, r.2 = Some (s, st, big) -> s_items s = c_k cl /\ big <= c_n cl) (init_cl_stack cfg log2cap cl).
Proof.
  intros Hn Hk. unfold init_cl_stack. cbv zeta. pose proof (Hlog 10 (c_n cl) Hn). destruct (_ <? _)%N; [ask_all; done|].
  eapply ak_bind; [apply ak_calloc_arr; lia|]. intros cls Hc. eapply ak_bind; [apply ak_malloc_arr; lia|]. intros st _.
  destruct cls as [cls|]; [|ask_all; done]. destruct st as [st|]; [|ask_all; done].
  assert (sizes_le 0 (Some cls)) as H0.
  { intros i it Hi. unfold aget, cget in Hi. simpl in Hi. rewrite (Hc _ eq_refl) in Hi. destruct (replicate _ _ !! i) as [[x|]|] eqn:Ex; [|done|done].
    apply lookup_replicate in Ex as [[= ->] _]. injection Hi as <-. done. }
  eapply ak_bind; [apply ak_lift|]. intros cls1 E1.
  assert (sizes_le (c_n cl) cls1) as H1.
  { eapply (forR_idx (fun j x => sizes_le j x) (c_n cl) 0) in E1; [exact E1|done|]. intros j x x1 Hx Ex. cbv beta in Ex.
    assert (sizes_le (j + 1) x) as Hx' by (intros i y Hy; specialize (Hx _ _ Hy); lia).
    destruct (aget (c_label cl) j) as [l|]; [|done]. simpl in Ex. destruct (decide (l = _)); [by injection Ex as <-|].
    destruct (label_idx l) as [q|]; [|done]. simpl in Ex. destruct (aget x q) as [it|] eqn:Eq; [|done]. simpl in Ex. eapply sizes_set; [exact Hx'| |exact Ex]. simpl. specialize (Hx _ _ Eq). lia. }
  eapply ak_bind; [apply ak_lift|]. intros cls2 E2.
  assert (sizes_le (c_n cl) cls2) as H2.
  { destruct (aget cls1 0) as [it|] eqn:Eq; [|done]. simpl in E2. eapply sizes_set; [exact H1| |exact E2]. simpl. exact (H1 _ _ Eq). }
  eapply ak_bind; [apply ak_lift|]. intros [cls3 big] E3.
  assert (big <= c_n cl) as H3.
  { eapply (forR_inv (fun x => sizes_le (c_n cl) x.1 /\ x.2 <= c_n cl)) in E3; [by destruct E3|split; [done|simpl; lia]|].
    intros j [x xb] [x1 xb1] [Hx Hb] Ex. simpl in Hx, Hb. cbv beta in Ex.
    destruct (aget x (j - 1)) as [pr|]; [|done]. simpl in Ex. destruct (aget x j) as [it|] eqn:Eq; [|done]. simpl in Ex. specialize (Hx _ _ Eq) as Hi.
    destruct (aset x j _) as [x2|] eqn:E4; [|done]. simpl in Ex. injection Ex as <- <-. simpl. split; [eapply sizes_set; [exact Hx| |exact E4]; simpl; lia|]. destruct (decide _); lia. }
  eapply ak_bind; [apply ak_lift|]. intros [cls4 st4] _. apply ak_ret. simpl. intros s st' big' [= <- <- <-]. done.
Qed.

Lemma ak_malloc_es n : n <= b -> askM anyv (malloc_es n).
Proof. intros H. unfold malloc_es. ask_all. Qed.
Lemma ak_free_es e : askM anyv (free_es e).
Proof. unfold free_es. ask_all. Qed.
Hint Resolve ak_free_es : ask.

Lemma ak_hierarchical ds k batch cl : askM anyv (hierarchical_clustering cfg P qs log2cap ds k batch cl).
Proof.
  unfold hierarchical_clustering. cbv zeta. destruct (is_initialized_clustering cfg cl) eqn:Hi; cbn [negb]; [|ask_all]. destruct cl as [c|]; [|ask_all].
  assert (c_n c <= u /\ c_k c <= u) as [Hn Hk].
  { unfold is_initialized_clustering in Hi. destruct (decide (c_version c <> _)); [done|]. destruct (decide (c_n c = 0)); [done|].
    destruct (N.ltb_spec (pi_max cfg) (N.of_nat (c_n c))); [done|]. destruct (N.ltb_spec (cl_max cfg) (N.of_nat (c_k c))); [done|]. lia. }
  destruct (negb _); [ask_all|]. destruct (decide (_ <> _)); [ask_all|]. destruct (decide (k < 2)); [ask_all|]. destruct (decide (c_n c < k)); [ask_all|].
  eapply (ak_bind (fun r => forall c1 s st big, r = inl (c1, s, st, big) -> c_n c1 = c_n c /\ s_items s <= u + 1 /\ big <= c_n c)).
  { destruct (decide (c_k c = 0)).
    - eapply (ak_bind (fun r => c_n r.2 = c_n c)); [destruct (c_label c); [by apply ak_ret|]; eapply ak_bind; [apply ak_malloc_arr; lia|]; intros; by apply ak_ret|].
      intros [ok c1] Hc1. simpl in Hc1. destruct ok; simpl; [|ask_all; done]. eapply ak_bind; [by apply ak_empty_stack|]. intros [ec [[s st]|]] Hs; apply ak_ret; [|done].
      intros ? ? ? ? [= <- <- <- <-]. specialize (Hs _ _ eq_refl). splits; auto; lia.
    - eapply ak_bind; [by apply ak_init_stack|]. intros [ec [[[s st] big]|]] Hs; apply ak_ret; [|done].
      intros ? ? ? ? [= <- <- <- <-]. specialize (Hs _ _ _ eq_refl) as [? ?]. splits; auto; lia. }
  intros [[[[c1 s] st] big]|[ec c1]] H; [|ask_all]. specialize (H _ _ _ _ eq_refl) as (Hc1 & Hs & Hb).
  eapply ak_bind; [apply ak_malloc_arr; unfold num_check; destruct (decide _); lia|]. intros p1 _.
  eapply ak_bind; [apply ak_malloc_arr; unfold num_check; destruct (decide _); lia|]. intros p2 _.
  eapply ak_bind; [apply ak_malloc_arr; unfold num_check; destruct (decide _); lia|]. intros dd _.
  eapply ak_bind; [apply ak_calloc_arr; lia|]. intros mk _.
  eapply ak_bind; [apply ak_malloc_es; lia|]. intros e1 _. eapply ak_bind; [apply ak_malloc_es; lia|]. intros e2 _.
  eapply (ak_bind anyv); [|intros [[[ec c2] s2] h2] _; ask_all].
  destruct p1, p2, dd, mk, e1, e2; try (by ask_all). apply ak_hi_run; lia.
Qed.

(** ** Checking *)

Context (Hub2 : (65535 * N.of_nat u <= N.of_nat b)%N).

Lemma ak_check cl opt out : askM anyv (check_clustering cfg cl opt out).
Proof.
  unfold check_clustering. cbv zeta. destruct (negb out); [ask_all|]. destruct (is_initialized_clustering cfg cl) eqn:Hi; cbn [negb]; [|ask_all]. destruct cl as [c|]; [|ask_all].
  assert (c_k c <= u) as Hk.
  { unfold is_initialized_clustering in Hi. destruct (decide (c_version c <> _)); [done|]. destruct (decide (c_n c = 0)); [done|].
    destruct (N.ltb_spec (pi_max cfg) (N.of_nat (c_n c))); [done|]. destruct (N.ltb_spec (cl_max cfg) (N.of_nat (c_k c))); [done|]. lia. }
  destruct (decide (c_k c = 0)); [ask_all|].
  eapply (ak_bind (fun ec => forall o, opt = Some o -> ec = ER_OK -> 2 <= o_num_types o -> (N.of_nat (o_num_types o) <= 65535)%N)).
  { destruct opt as [o|]; [|apply ak_bad]. unfold check_cluster_options. cbv zeta.
    do 3 (destruct (decide _); [eapply ak_mono; [apply ak_make_error_msg|]; intros ? -> ? _ [=]|]).
    destruct (decide (o_num_types o < 2)).
    { eapply ak_mono; [|intros ? ? ? [= <-] ? ?; lia]. eapply (ak_bind anyv); [ask_all|]. intros r _. ask_all. }
    destruct (N.ltb_spec 65535 (N.of_nat (o_num_types o))).
    - eapply (ak_bind (fun r => r = Some ER_TOO_LARGE_PROBLEM)); [|intros ? ->; apply ak_ret; intros ? _ [=]].
      eapply ak_bind; [apply ak_make_error_msg|]. intros ? ->. by apply ak_ret.
    - eapply ak_mono; [|intros ? ? ? [= <-] ? ?; lia]. eapply (ak_bind anyv); [ask_all|]. intros r _. ask_all. }
  intros ec Hec. destruct (decide (ec <> ER_OK)) as [|He]; [ask_all|]. destruct opt as [o|]; [|ask_all].
  assert (2 <= o_num_types o -> (N.of_nat (o_num_types o) <= 65535)%N) as Hnt by (apply (Hec o); auto; destruct (decide (ec = ER_OK)); tauto).
  ask_step. intros ok _. destruct (negb ok); [ask_all|]. ask_step. intros ok2 _. destruct (negb ok2); [ask_all|].
  destruct (decide (o_num_types o < 2)); [ask_all|]. eapply ak_bind; [apply ak_calloc_arr|intros sz _; ask_all].
  specialize (Hnt ltac:(lia)). assert (N.of_nat (wrapN u64max (o_num_types o * c_k c)) <= N.of_nat (o_num_types o * c_k c))%N.
  { unfold wrapN. rewrite N2Nat.id. apply N.mod_le. unfold u64max. lia. }
  pose proof (N.mul_le_mono (N.of_nat (o_num_types o)) 65535 (N.of_nat (c_k c)) (N.of_nat u) Hnt ltac:(lia)). lia.
Qed.
End Asks.

(** ** The built-in functions *)

Lemma builtin_asks b u : 1 <= b -> u <= b -> provider_asks b u builtin.
Proof.
  intros H1 Hu. assert (forall d s, askM b anyv (imp_init d s)) as Hinit.
  { intros d s. unfold imp_init. eapply ak_bind; [by apply ak_malloc|]. intros [x|] _; by apply ak_ret. }
  assert (forall o, askM b anyv (imp_close o)) as Hclose. { intros o. unfold imp_close. eapply ak_bind; [apply ak_free|]. intros; by apply ak_ret. }
  assert (forall x, askM b anyv (deref x)) as Hderef. { intros x w a w' E. unfold deref in E. destruct (decide _); [|done]. injection E as <- <-. split; [done|lia]. }
  constructor; simpl; auto.
  - intros o q k rad Hk. unfold imp_nn_search. eapply ak_bind; [apply Hderef|]. intros _ _. eapply ak_bind; [apply ak_malloc_arr; lia|]. intros [a|] _; [|by apply ak_ret].
    eapply ak_bind; [apply ak_lift|]. intros r _. eapply ak_bind; [apply ak_free_arr|]. intros; by apply ak_ret.
  - intros. unfold imp_rows. by eapply ak_any, ak_lift.
  - intros. unfold imp_matrix. by eapply ak_any, ak_lift.
  - intros. unfold imp_max_get. eapply ak_bind; [apply Hderef|]. intros _ _. by eapply ak_any, ak_lift.
Qed.
