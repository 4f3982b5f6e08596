(** The latest error as text: src/error.c. *)

From Coq Require Import Strings.String Strings.Ascii Numbers.DecimalString Numbers.DecimalPos.
From stdpp Require Import prelude list.
From Coq Require Import NArith ZArith.
From Verif Require Import Base World.
Open Scope string_scope. Open Scope list_scope. Open Scope nat_scope.

(** A buffer of characters; None is a character that was never written. *)
Notation buffer := (list (option ascii)).
Definition nul : ascii := Ascii.zero.
Definition chars (s : string) : list ascii := list_ascii_of_string s.

(** snprintf(buf, len, ...) with [len] > 0 of text [s]: at most [len] - 1 characters and
    a terminating NUL; negative when the text is longer than INT_MAX. *)
Definition snprintf (len : nat) (s : string) (buf : buffer) : R (bool * buffer) :=
  if (i32max <? N.of_nat (length (chars s)))%N then Ok (false, buf) else
  let out := take (len - 1) (chars s) ++ [nul] in
  if decide (length buf < length out) then Bad Oob else Ok (true, (Some <$> out) ++ drop (length out) buf).

(** %d. *)
Definition decimal (z : Z) : string := NilZero.string_of_int (Z.to_int z).

(** scc_get_latest_error (src/error.c 67-116): the result and the buffer. *)
Definition default_message (ec : ecode) : string :=
  match ec with
  | ER_UNKNOWN_ERROR => "Unkonwn error."
  | ER_INVALID_INPUT => "Function parameters are invalid."
  | ER_NO_MEMORY => "Cannot allocate required memory."
  | ER_NO_SOLUTION => "Clustering problem has no solution."
  | ER_TOO_LARGE_PROBLEM => "Clustering problem is too large."
  | ER_DIST_SEARCH_ERROR => "Failed to calculate distances."
  | ER_NOT_IMPLEMENTED => "Functionality not yet implemented."
  | _ => "Unknown error code."
  end.

Definition get_latest_error (len : nat) (buf : option buffer) : M (bool * option buffer) := fun w =>
  match buf with
  | None => Ok ((false, None), w)
  | Some buf =>
  if decide (len = 0) then Ok ((false, Some buf), w) else
  let e := w_err w in
  let text :=
    if decide (e_code e = ER_OK) then "(scclust) No error."
    else ("(scclust:" ++ e_file e ++ ":" ++ decimal (e_line e) ++ ") " ++ match e_msg e with Some m => m | None => default_message (e_code e) end)%string in
  match snprintf len text buf with
  | Bad u => Bad u
  | Ok (ok, buf) => Ok ((ok, Some buf), w)
  end
  end.

(** ** Specification *)

(** The text for an error state. *)
Inductive error_text : errst -> string -> Prop :=
| text_none msg file line : error_text (ErrSt ER_OK msg file line) "(scclust) No error."
| text_custom ec msg file line d : ec <> ER_OK -> NilZero.int_of_string d = Some (Z.to_int line) ->
    error_text (ErrSt ec (Some msg) file line) ("(scclust:" ++ file ++ ":" ++ d ++ ") " ++ msg)
| text_default ec file line d m : NilZero.int_of_string d = Some (Z.to_int line) ->
    (ec, m) ∈ [(ER_UNKNOWN_ERROR, "Unkonwn error."); (ER_INVALID_INPUT, "Function parameters are invalid."); (ER_NO_MEMORY, "Cannot allocate required memory.");
               (ER_NO_SOLUTION, "Clustering problem has no solution."); (ER_TOO_LARGE_PROBLEM, "Clustering problem is too large.");
               (ER_DIST_SEARCH_ERROR, "Failed to calculate distances."); (ER_NOT_IMPLEMENTED, "Functionality not yet implemented.")] ->
    error_text (ErrSt ec None file line) ("(scclust:" ++ file ++ ":" ++ d ++ ") " ++ m).

(** [buf'] is [buf] with [t] and a NUL written over its start, cut to [len]. *)
Definition holds_text (len : nat) (t : string) (buf buf' : buffer) : Prop :=
  length buf' = length buf /\
  (forall i, i < len - 1 -> i < length (chars t) -> buf' !! i = Some <$> chars t !! i) /\
  buf' !! ((len - 1) `min` length (chars t)) = Some (Some nul) /\
  (forall i, (len - 1) `min` length (chars t) < i -> buf' !! i = buf !! i).

Lemma decimal_reads z : NilZero.int_of_string (decimal z) = Some (Z.to_int z).
Proof. unfold decimal. apply NilZero.isi; destruct z as [|p|p]; try done; intros [= H]; by apply (DecimalPos.Unsigned.to_uint_nonnil p). Qed.

Lemma snprintf_spec len t buf : 0 < len -> len <= length buf -> (N.of_nat (length (chars t)) <= i32max)%N ->
  exists buf', snprintf len t buf = Ok (true, buf') /\ holds_text len t buf buf'.
Proof.
  intros H1 H2 H3. unfold snprintf. destruct (N.ltb_spec i32max (N.of_nat (length (chars t)))); [lia|]. set (out := take (len - 1) (chars t) ++ [nul]).
  assert (length out = (len - 1) `min` length (chars t) + 1) as Hout by (unfold out; rewrite app_length, take_length; done). rewrite decide_False by lia. eexists. split; [done|].
  unfold holds_text. splits.
  - rewrite app_length, fmap_length, drop_length. lia.
  - intros i Hi1 Hi2. rewrite lookup_app_l by (rewrite fmap_length; lia). rewrite list_lookup_fmap. f_equal. unfold out. rewrite lookup_app_l by (rewrite take_length; lia). by rewrite lookup_take.
  - rewrite lookup_app_l by (rewrite fmap_length; lia). rewrite list_lookup_fmap. unfold out. rewrite lookup_app_r by (rewrite take_length; lia). rewrite take_length, Nat.sub_diag. done.
  - intros i Hi. rewrite lookup_app_r by (rewrite fmap_length; lia). rewrite fmap_length, lookup_drop. f_equal. lia.
Qed.

Lemma error_text_fun e t t' : error_text e t -> error_text e t' -> t = t'.
Proof.
  assert (forall d d' i, NilZero.int_of_string d = Some i -> NilZero.int_of_string d' = Some i -> d = d') as Hd.
  { intros d d' i H1%NilZero.sis H2%NilZero.sis. congruence. }
  intros H1 H2. inversion H1 as [? ? ? E1|ec m f l d Hec Hr E1|ec f l d m Hr Hm E1]; subst; inversion H2; subst; try done.
  - match goal with Hm : (ER_OK, _) ∈ _ |- _ => exfalso; by repeat (apply elem_of_cons in Hm as [[= ?]|Hm]); apply elem_of_nil in Hm end.
  - by erewrite (Hd d d0).
  - exfalso. by repeat (apply elem_of_cons in Hm as [[= ?]|Hm]); apply elem_of_nil in Hm.
  - erewrite (Hd d d0) by done. do 5 f_equal.
    repeat (apply elem_of_cons in Hm as [[= -> ->]|Hm]); [..|by apply elem_of_nil in Hm]; match goal with Hm : (_, m0) ∈ _ |- _ => repeat (apply elem_of_cons in Hm as [[= ?]|Hm]); [done|by apply elem_of_nil in Hm] end.
Qed.

Lemma latest_error_spec len buf w : 0 < len -> len <= length buf -> exists t, error_text (w_err w) t /\
  ((N.of_nat (length (chars t)) <= i32max)%N -> exists buf', get_latest_error len (Some buf) w = Ok ((true, Some buf'), w) /\ holds_text len t buf buf').
Proof.
  intros H1 H2. unfold get_latest_error. rewrite (decide_False (P := len = 0)) by lia. destruct (w_err w) as [ec msg file line]. cbn [e_code e_msg e_file e_line].
  destruct (decide (ec = ER_OK)) as [->|Hec].
  - exists "(scclust) No error.". split; [constructor|]. intros Hn. destruct (snprintf_spec len _ buf H1 H2 Hn) as (b' & -> & Hb). eauto.
  - eexists. split.
    2: { intros Hn. destruct (snprintf_spec len _ buf H1 H2 Hn) as (b' & -> & Hb). eauto. }
    destruct msg as [m|]; [constructor; [done|apply decimal_reads]|]. constructor; [apply decimal_reads|]. destruct ec; simpl; try done; set_solver.
Qed.

Lemma latest_error_refuses len buf w : len = 0 \/ buf = None -> get_latest_error len buf w = Ok ((false, buf), w).
Proof. intros [-> | ->]; unfold get_latest_error; [|done]. by destruct buf. Qed.
