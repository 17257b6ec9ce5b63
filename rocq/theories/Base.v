(** Outcomes, build modes, views on XSS arrays, and [base::Base]. *)
From Coq Require Import ZArith Bool List Lia.
From Coq Require Import ZifyBool ZifyNat.
From Verif Require Export Float.
Import ListNotations.
Open Scope Z_scope.

(** * Outcomes *)

(** The exceptions ACEtk throws: [std::out_of_range] from index checks,
    [std::exception] from size and consistency checks, and those thrown by
    the standard library ([std::bad_optional_access], [std::length_error],
    [std::invalid_argument]). *)
Inductive exc := OutOfRange | StdException | BadOptional | LengthError | InvalidArgument | RuntimeError.

(** Result of running a C++ function: a value, an exception, or undefined
    behaviour (nothing is known about what the program does). *)
Inductive outcome (A : Type) :=
| Ok (a : A)
| Throw (e : exc)
| UB.
Arguments Ok {A} _. Arguments Throw {A} _. Arguments UB {A}.

Definition bind {A B} (o : outcome A) (f : A -> outcome B) : outcome B :=
  match o with Ok a => f a | Throw e => Throw e | UB => UB end.
Notation "x <- e ;; f" := (bind e (fun x => f))
  (at level 61, e at next level, right associativity).
Notation "'_' <- e ;; f" := (bind e (fun _ => f))
  (at level 61, e at next level, right associativity).

(** [if (cond) throw e;] *)
Definition throw_if (b : bool) (e : exc) : outcome unit := if b then Throw e else Ok tt.

Fixpoint mapM {A B} (f : A -> outcome B) (l : list A) : outcome (list B) :=
  match l with
  | [] => Ok []
  | a :: r => b <- f a ;; bs <- mapM f r ;; Ok (b :: bs)
  end.

(** [NDEBUG] undefined / defined. *)
Inductive build := Debug | Release.
Definition debug (bm : build) : bool := match bm with Debug => true | Release => false end.

Definition len {A} (l : list A) : Z := Z.of_nat (length l).

(** * Views *)

(** A [base::Base] object (src/ACEtk/base/Base.hpp:26-34): two iterators into a
    vector of doubles.  Iterators are offsets in [buf], the vector they point
    into: the object's own vector if the object owns its data ([xss_] engaged),
    or the table's XSS array.  [name_] is not modelled (it only appears in
    messages).  [length_] is [vlen]. *)
Record view := View { buf : list double; vbeg : Z; vend : Z }.

(** length_( std::distance( begin, end ) ), src/ACEtk/base/Base/src/ctor.hpp:14-17 *)
Definition vlen (v : view) : Z := u64 (vend v - vbeg v).

(** Owning constructor, src/ACEtk/base/Base/src/ctor.hpp:19-25 *)
Definition own (xss : list double) : view := View xss 0 (len xss).

(** A view on the same vector with other iterators. *)
Definition sub (v : view) (b e : Z) : view := View (buf v) b e.

(** Dereferencing an iterator: undefined outside the vector. *)
Definition deref (b : list double) (i : Z) : outcome double :=
  if 0 <=? i then
    match nth_error b (Z.to_nat i) with Some x => Ok x | None => UB end
  else UB.

Definition slice (b : list double) (l r : Z) : list double :=
  firstn (Z.to_nat (r - l)) (skipn (Z.to_nat l) b).

(** Reading all values of the subrange [l,r): undefined if it is not a range
    inside the vector.  (C++ builds the subrange lazily; the model reads it.) *)
Definition read_range (b : list double) (l r : Z) : outcome (list double) :=
  if (0 <=? l) && (l <=? r) && (r <=? len b) then Ok (slice b l r) else UB.

(** verifyIndex, src/ACEtk/base/Base/src/verifyIndex.hpp:1-13 *)
Definition verifyIndex (index min max : Z) : outcome unit :=
  throw_if ((index <? min) || (max <? index)) OutOfRange.

(** iterator( index ), src/ACEtk/base/Base.hpp:90-98.  The argument is a
    [std::size_t]: it is reduced modulo 2^64 on entry, so that callers can
    compute indices in Z (addition, subtraction and multiplication commute with
    the reduction). *)
Definition iter (bm : build) (v : view) (index : Z) : outcome Z :=
  let index := u64 index in
  _ <- (if debug bm then verifyIndex index 1 (u64 (vlen v + 1)) else Ok tt) ;;
  Ok (vbeg v + s64 (index - 1)).

(** XSS( index ), src/ACEtk/base/Base.hpp:115-121 *)
Definition xss (bm : build) (v : view) (index : Z) : outcome double :=
  let index := u64 index in
  _ <- (if debug bm then verifyIndex index 1 (vlen v) else Ok tt) ;;
  deref (buf v) (vbeg v + s64 (index - 1)).

(** static_cast< int >( std::round( x ) ); undefined if it does not fit. *)
Definition to_int (x : double) : outcome Z :=
  match sf_round x with
  | Some z => if in_int z then Ok z else UB
  | None => UB
  end.

(** static_cast< std::size_t >( std::round( x ) ) *)
Definition round_to_size (x : double) : outcome Z :=
  match sf_round x with
  | Some z => if in_size z then Ok z else UB
  | None => UB
  end.

(** implicit conversion double -> std::size_t (truncation) *)
Definition trunc_to_size (x : double) : outcome Z :=
  match sf_trunc x with
  | Some z => if in_size z then Ok z else UB
  | None => UB
  end.

(** implicit conversion double -> int (truncation) *)
Definition trunc_to_int (x : double) : outcome Z :=
  match sf_trunc x with
  | Some z => if in_int z then Ok z else UB
  | None => UB
  end.

(** IXSS( index ), src/ACEtk/base/Base.hpp:131-134 *)
Definition ixss (bm : build) (v : view) (index : Z) : outcome Z :=
  x <- xss bm v index ;; to_int x.

(** static_cast< std::size_t >( this->IXSS( index ) ): an [int] converted to
    [std::size_t]. *)
Definition ixss_size (bm : build) (v : view) (index : Z) : outcome Z :=
  n <- ixss bm v index ;; Ok (u64 n).

(** XSS( index, length ), src/ACEtk/base/Base.hpp:145-151 *)
Definition xssr (bm : build) (v : view) (index length : Z) : outcome (list double) :=
  let length := u64 length in
  left <- iter bm v index ;;
  right <- (if 0 <? length then r <- iter bm v (index + length - 1) ;; Ok (r + 1)
            else Ok left) ;;
  read_range (buf v) left right.

(** IXSS( index, length ), src/ACEtk/base/Base.hpp:163-173 *)
Definition ixssr (bm : build) (v : view) (index length : Z) : outcome (list Z) :=
  l <- xssr bm v index length ;; mapM to_int l.

(** empty(), src/ACEtk/base/Base.hpp:60 *)
Definition vempty (v : view) : bool := vbeg v =? vend v.

(** XSS(), src/ACEtk/base/Base.hpp:102-105 *)
Definition xss_all (v : view) : outcome (list double) := read_range (buf v) (vbeg v) (vend v).

(** * Specification: the values a view shows *)

(** Upper bound on the number of words in an XSS array.  Locators and counts
    are read as [int] (IXSS), so no ACE table handled by ACEtk can be larger. *)
Definition max_words : Z := 2 ^ 31.

(** [has v l]: the values at the beginning of view v are l (the view may
    continue after l); [content v l]: the view shows exactly l. *)
Definition has (v : view) (l : list double) : Prop :=
  exists pre post, buf v = pre ++ l ++ post /\ vbeg v = len pre
    /\ len pre + len l <= vend v <= len (buf v) /\ len (buf v) < max_words.

Definition content (v : view) (l : list double) : Prop :=
  has v l /\ vend v = vbeg v + len l.

(** * Lemmas *)

Lemma len_nil {A} : len (@nil A) = 0. Proof. reflexivity. Qed.
Lemma len_cons {A} (a : A) l : len (a :: l) = 1 + len l.
Proof. unfold len; cbn [length]; lia. Qed.
Lemma len_app {A} (l r : list A) : len (l ++ r) = len l + len r.
Proof. unfold len; rewrite app_length; lia. Qed.
Lemma len_map {A B} (f : A -> B) l : len (map f l) = len l.
Proof. unfold len; rewrite map_length; reflexivity. Qed.
Lemma len_nonneg {A} (l : list A) : 0 <= len l.
Proof. unfold len; lia. Qed.
Lemma len_repeat {A} (a : A) n : len (repeat a n) = Z.of_nat n.
Proof. unfold len; rewrite repeat_length; reflexivity. Qed.

Ltac slen := repeat rewrite ?len_app, ?len_cons, ?len_nil, ?len_map, ?len_repeat in *.
Ltac nonneg :=
  repeat match goal with
  | |- context [len ?l] => lazymatch goal with H : 0 <= len l |- _ => fail | _ => pose proof (len_nonneg l) end
  | H0 : context [len ?l] |- _ => lazymatch goal with H : 0 <= len l |- _ => fail | _ => pose proof (len_nonneg l) end
  end.
Ltac zl := unfold max_words in *; slen; nonneg; lia.

Lemma own_content l : len l < max_words -> content (own l) l.
Proof.
  intros H. split; [|unfold own; cbn; zl].
  exists [], []. cbn. rewrite app_nil_r. repeat split; try zl.
Qed.

Lemma content_has v l : content v l -> has v l.
Proof. intros [H _]; exact H. Qed.

Lemma has_app v l1 l2 : has v (l1 ++ l2) -> has v l1.
Proof.
  intros (pre & post & H1 & H2 & H3 & H4). exists pre, (l2 ++ post).
  rewrite <- !app_assoc in *. repeat split; auto; zl.
Qed.

Lemma has_bounds v l : has v l ->
  0 <= vbeg v /\ vbeg v + len l <= vend v /\ vend v <= len (buf v) /\ len (buf v) < 2 ^ 31.
Proof. intros (pre & post & H1 & H2 & H3 & H4). unfold max_words in *. nonneg. lia. Qed.

Lemma vlen_has v l : has v l -> vlen v = vend v - vbeg v.
Proof.
  intros H. pose proof (has_bounds v l H). unfold vlen. nonneg. apply u64_small. lia.
Qed.

Lemma vlen_content v l : content v l -> vlen v = len l.
Proof. intros [H E]. rewrite (vlen_has v l H). lia. Qed.

Lemma iter_has bm v l i : has v l -> 1 <= i <= vend v - vbeg v + 1 -> iter bm v i = Ok (vbeg v + i - 1).
Proof.
  intros H Hi. pose proof (has_bounds v l H) as Hb. nonneg. unfold iter.
  rewrite (u64_small i) by lia. rewrite (vlen_has v l H).
  rewrite u64_small by lia. rewrite s64_small by lia.
  unfold verifyIndex, throw_if. destruct (debug bm).
  - destruct ((i <? 1) || _) eqn:E; [lia|]. cbn. f_equal; lia.
  - cbn. f_equal; lia.
Qed.

Lemma deref_app pre l post k x :
  nth_error l k = Some x -> deref (pre ++ l ++ post) (len pre + Z.of_nat k) = Ok x.
Proof.
  intros H. unfold deref, len.
  destruct (Z.leb_spec 0 (Z.of_nat (length pre) + Z.of_nat k)); [|lia].
  rewrite <- Nat2Z.inj_add, Nat2Z.id.
  rewrite nth_error_app2 by lia. replace (length pre + k - length pre)%nat with k by lia.
  rewrite nth_error_app1; [rewrite H; reflexivity|].
  apply nth_error_Some. congruence.
Qed.

Lemma nth_error_len {A} (l : list A) k x : nth_error l k = Some x -> Z.of_nat k < len l.
Proof. intros H. unfold len. assert (k < length l)%nat by (apply nth_error_Some; congruence). lia. Qed.

Lemma xss_has bm v l i k x :
  has v l -> nth_error l k = Some x -> i = Z.of_nat k + 1 -> xss bm v i = Ok x.
Proof.
  intros H Hk ->. pose proof (has_bounds v l H) as Hb. pose proof (nth_error_len _ _ _ Hk) as Hl.
  unfold xss. rewrite (u64_small (Z.of_nat k + 1)) by lia. rewrite (vlen_has v l H).
  rewrite s64_small by lia.
  destruct H as (pre & post & H1 & H2 & H3 & H4).
  replace (vbeg v + (Z.of_nat k + 1 - 1)) with (len pre + Z.of_nat k) by lia.
  rewrite H1. rewrite (deref_app _ _ _ _ _ Hk).
  unfold verifyIndex, throw_if. destruct (debug bm); [|reflexivity].
  destruct ((Z.of_nat k + 1 <? 1) || _) eqn:E; [lia|reflexivity].
Qed.

Lemma nth_error_mid {A} (l1 : list A) x l2 : nth_error (l1 ++ x :: l2) (length l1) = Some x.
Proof. rewrite nth_error_app2 by lia. rewrite Nat.sub_diag. reflexivity. Qed.

(** The value right after a prefix [l1]. *)
Lemma xss_at bm v l1 x l2 i :
  has v (l1 ++ x :: l2) -> i = len l1 + 1 -> xss bm v i = Ok x.
Proof.
  intros H Hi. eapply (xss_has _ _ _ _ (length l1)); [exact H|apply nth_error_mid|exact Hi].
Qed.

Lemma to_int_dbl n : - 2 ^ 31 <= n < 2 ^ 31 -> to_int (dbl n) = Ok n.
Proof.
  intros H. unfold to_int. rewrite sf_round_dbl by lia. unfold in_int.
  destruct ((- 2 ^ 31 <=? n) && (n <? 2 ^ 31)) eqn:E; [reflexivity|lia].
Qed.
Lemma round_to_size_dbl n : 0 <= n < 2 ^ 53 -> round_to_size (dbl n) = Ok n.
Proof.
  intros H. unfold round_to_size. rewrite sf_round_dbl by lia. unfold in_size.
  destruct ((0 <=? n) && (n <? 2 ^ 64)) eqn:E; [reflexivity|lia].
Qed.
Lemma trunc_to_size_dbl n : 0 <= n < 2 ^ 53 -> trunc_to_size (dbl n) = Ok n.
Proof.
  intros H. unfold trunc_to_size. rewrite sf_trunc_dbl by lia. unfold in_size.
  destruct ((0 <=? n) && (n <? 2 ^ 64)) eqn:E; [reflexivity|lia].
Qed.
Lemma trunc_to_int_dbl n : - 2 ^ 31 <= n < 2 ^ 31 -> trunc_to_int (dbl n) = Ok n.
Proof.
  intros H. unfold trunc_to_int. rewrite sf_trunc_dbl by lia. unfold in_int.
  destruct ((- 2 ^ 31 <=? n) && (n <? 2 ^ 31)) eqn:E; [reflexivity|lia].
Qed.

Lemma mapM_to_int_dbl l :
  Forall (fun n => - 2 ^ 31 <= n < 2 ^ 31) l -> mapM to_int (map dbl l) = Ok l.
Proof.
  induction l as [|n l IH]; intros H; [reflexivity|]. inversion H; subst.
  cbn [map mapM]. rewrite to_int_dbl by assumption. cbn. rewrite IH by assumption. reflexivity.
Qed.

Lemma ixss_at bm v l1 n l2 i :
  has v (l1 ++ dbl n :: l2) -> i = len l1 + 1 -> - 2 ^ 31 <= n < 2 ^ 31 -> ixss bm v i = Ok n.
Proof.
  intros H Hi Hn. unfold ixss. rewrite (xss_at _ _ _ _ _ _ H Hi). cbn. apply to_int_dbl; exact Hn.
Qed.

Lemma ixss_size_at bm v l1 n l2 i :
  has v (l1 ++ dbl n :: l2) -> i = len l1 + 1 -> 0 <= n < 2 ^ 31 -> ixss_size bm v i = Ok n.
Proof.
  intros H Hi Hn. unfold ixss_size. rewrite (ixss_at _ _ _ _ _ _ H Hi) by lia. cbn.
  rewrite u64_small by lia. reflexivity.
Qed.

Lemma slice_app pre l post :
  slice (pre ++ l ++ post) (len pre) (len pre + len l) = l.
Proof.
  unfold slice, len.
  replace (Z.to_nat (Z.of_nat (length pre) + Z.of_nat (length l) - Z.of_nat (length pre)))
    with (length l) by lia.
  rewrite Nat2Z.id. rewrite skipn_app, skipn_all, Nat.sub_diag. cbn [app skipn].
  rewrite firstn_app, firstn_all, Nat.sub_diag, firstn_O. apply app_nil_r.
Qed.

Lemma read_range_app pre l post a b :
  a = len pre -> b = len pre + len l -> read_range (pre ++ l ++ post) a b = Ok l.
Proof.
  intros -> ->. unfold read_range.
  destruct ((0 <=? len pre) && _ && _) eqn:E; [rewrite slice_app; reflexivity|].
  slen; nonneg; lia.
Qed.

Lemma xssr_has bm v l1 l2 l3 i n :
  has v (l1 ++ l2 ++ l3) -> i = len l1 + 1 -> n = len l2 -> xssr bm v i n = Ok l2.
Proof.
  intros H -> ->. pose proof (has_bounds _ _ H) as Hb. rewrite !len_app in Hb.
  pose proof (len_nonneg l1); pose proof (len_nonneg l2); pose proof (len_nonneg l3).
  unfold xssr. rewrite (u64_small (len l2)) by lia.
  rewrite (iter_has _ _ _ _ H) by lia. cbn [bind].
  assert (E : (if 0 <? len l2
               then r <- iter bm v (len l1 + 1 + len l2 - 1);; Ok (r + 1)
               else Ok (vbeg v + (len l1 + 1) - 1)) = Ok (vbeg v + len l1 + len l2)).
  { destruct (Z.ltb_spec 0 (len l2)).
    - rewrite (iter_has _ _ _ _ H) by lia. cbn. f_equal; lia.
    - f_equal; lia. }
  rewrite E. cbn [bind].
  destruct H as (pre & post & Hb1 & Hb2 & Hb3 & Hb4). rewrite Hb1.
  replace (pre ++ (l1 ++ l2 ++ l3) ++ post) with ((pre ++ l1) ++ l2 ++ (l3 ++ post))
    by (rewrite <- !app_assoc; reflexivity).
  apply read_range_app; rewrite len_app; lia.
Qed.

Lemma xss_all_content v l : content v l -> xss_all v = Ok l.
Proof.
  intros [(pre & post & Hb1 & Hb2 & Hb3 & Hb4) E]. unfold xss_all. rewrite Hb1.
  apply read_range_app; lia.
Qed.

(** Sub-views *)
Lemma sub_content v l1 l2 l3 b e :
  has v (l1 ++ l2 ++ l3) -> b = vbeg v + len l1 -> e = vbeg v + len l1 + len l2 ->
  content (sub v b e) l2.
Proof.
  intros (pre & post & Hbuf & Hbeg & Hend & Hmax) -> ->. split; [|cbn; lia].
  exists (pre ++ l1), (l3 ++ post). cbn [buf vbeg vend sub].
  split; [rewrite Hbuf, <- !app_assoc; reflexivity|].
  split; [slen; lia|]. split; [|exact Hmax]. rewrite !len_app in *. nonneg. lia.
Qed.

(** A sub-view that runs on to some later point still shows [l2] first. *)
Lemma sub_has v l1 l2 b e :
  has v (l1 ++ l2) -> b = vbeg v + len l1 -> vbeg v + len l1 + len l2 <= e <= vend v ->
  has (sub v b e) l2.
Proof.
  intros (pre & post & Hbuf & Hbeg & Hend & Hmax) -> He.
  exists (pre ++ l1), post. cbn [buf vbeg vend sub].
  split; [rewrite Hbuf, <- !app_assoc; reflexivity|].
  split; [slen; lia|]. split; [|exact Hmax]. rewrite len_app. lia.
Qed.

Lemma content_inj v l l' : content v l -> content v l' -> l = l'.
Proof.
  intros H H'. pose proof (xss_all_content _ _ H). pose proof (xss_all_content _ _ H'). congruence.
Qed.

(** [sub] with the view's own bounds is the view. *)
Lemma sub_self v : sub v (vbeg v) (vend v) = v.
Proof. destruct v; reflexivity. Qed.

(** [iterator + n] with [n] of type [std::size_t] (converted to the signed
    difference type).  The model does not flag forming an iterator outside the
    vector, only reading through it. *)
Definition adv (i n : Z) : Z := i + s64 n.

Lemma adv_small i n : - 2 ^ 63 <= n < 2 ^ 63 -> adv i n = i + n.
Proof. intros H. unfold adv. rewrite s64_small by lia. reflexivity. Qed.

Lemma has_eq v l l' : has v l -> l = l' -> has v l'.
Proof. intros H <-; exact H. Qed.

(** Right-associate appends. *)
Ltac las := repeat (progress (cbn [app concat map]; rewrite <- ?app_assoc, ?app_nil_r));
  try reflexivity.

Lemma has_nil v l : has v l -> has v [].
Proof. intros H. apply (has_app _ [] l). exact H. Qed.

(** size < n with [size] the signed distance and n an [unsigned int] *)
Definition verify_at_least (v : view) (n : Z) : outcome unit :=
  throw_if (s64 (vend v - vbeg v) <? n) StdException.

Lemma verify_at_least_has v l n :
  has v l -> n <= len l -> verify_at_least v n = Ok tt.
Proof.
  intros H Hn. pose proof (has_bounds _ _ H) as Hb. unfold verify_at_least, throw_if.
  rewrite s64_small by (nonneg; lia).
  destruct (Z.ltb_spec (vend v - vbeg v) n); [lia|reflexivity].
Qed.

Lemma xss_round_size_at bm v l1 n l2 i :
  has v (l1 ++ dbl n :: l2) -> i = len l1 + 1 -> 0 <= n < 2 ^ 31 ->
  (x <- xss bm v i ;; round_to_size x) = Ok n.
Proof.
  intros H Hi Hn. rewrite (xss_at _ _ _ _ _ _ H Hi). cbn [bind]. apply round_to_size_dbl. lia.
Qed.

Lemma sub_has_tail v l1 l2 b :
  has v (l1 ++ l2) -> b = vbeg v + len l1 -> has (sub v b (vend v)) l2.
Proof.
  intros H Hb. apply (sub_has v l1 l2); [exact H|exact Hb|].
  pose proof (has_bounds _ _ H) as B. rewrite len_app in B. lia.
Qed.

Lemma sub_content_tail v l1 l2 b :
  content v (l1 ++ l2) -> b = vbeg v + len l1 -> content (sub v b (vend v)) l2.
Proof.
  intros [H E] Hb. apply (sub_content v l1 l2 []); [rewrite app_nil_r; exact H|exact Hb|].
  rewrite len_app in E. lia.
Qed.

Lemma deref_at v l1 x l2 i :
  has v (l1 ++ x :: l2) -> i = vbeg v + len l1 -> deref (buf v) i = Ok x.
Proof.
  intros (pre & post & Hb1 & Hb2 & Hb3 & Hb4) ->. rewrite Hb1, Hb2.
  pose proof (deref_app pre (l1 ++ x :: l2) post (length l1) x (nth_error_mid _ _ _)) as D.
  exact D.
Qed.
