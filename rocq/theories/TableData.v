(** Table::Data: IZ, AW, NXS, JXS and XSS with one-based access. *)
From Coq Require Import ZArith Bool List Lia Ascii.
From Coq Require Import ZifyBool ZifyNat.
From Verif Require Export AtomicBlocks.
Import ListNotations.
Open Scope Z_scope.

(** The fields, src/ACEtk/Table/Data.hpp:16-21.  The std::array sizes are in [data_wf]. *)
Record tdata := TData { d_iz : list Z; d_aw : list double; d_nxs : list Z; d_jxs : list Z; d_xss : list double }.
Definition data_wf (d : tdata) : Prop :=
  len (d_iz d) = 16 /\ len (d_aw d) = 16 /\ len (d_nxs d) = 16 /\ len (d_jxs d) = 32.

(** verifyIndex( sequence, index ), src/ACEtk/Table/Data/src/verifyIndex.hpp:1-13 *)
Definition seq_verify {A} (s : list A) (index : Z) : outcome unit := verifyIndex (u64 index) 1 (len s).
(** fetch( sequence, index ), .../fetch.hpp:1-12: a read through the returned reference or value;
    operator[] outside the sequence is undefined. *)
Definition fetch {A} bm (s : list A) (index : Z) : outcome A :=
  _ <- check bm (seq_verify s index) ;;
  let i := u64 (u64 index - 1) in
  if i <? len s then match nth_error s (Z.to_nat i) with Some x => Ok x | None => UB end else UB.
(** A write through the reference returned by fetch (the non-const accessors of Data.hpp:98-175). *)
Definition store {A} bm (s : list A) (index : Z) (x : A) : outcome (list A) :=
  _ <- check bm (seq_verify s index) ;;
  let i := u64 (u64 index - 1) in
  if i <? len s then upd (Z.to_nat i) x s else UB.

(** IZ, AW, NXS, JXS, XSS, IXSS ( index ), Data.hpp:98-198 *)
Definition d_IZ bm d index := fetch bm (d_iz d) index.
Definition d_AW bm d index := fetch bm (d_aw d) index.
Definition d_NXS bm d index := fetch bm (d_nxs d) index.
Definition d_JXS bm d index := fetch bm (d_jxs d) index.
Definition d_XSS bm d index := fetch bm (d_xss d) index.
Definition d_IXSS bm d index : outcome Z := x <- fetch bm (d_xss d) index ;; to_int x.

(** XSS( index, length ), .../XSS.hpp:11-20, 32-41 *)
Definition d_XSSr bm d (index length : Z) : outcome (list double) :=
  _ <- check bm (seq_verify (d_xss d) index) ;;
  _ <- check bm (seq_verify (d_xss d) (index + length - 1)) ;;
  let left := s64 (u64 index - 1) in
  let right := left + u64 length in
  read_range (d_xss d) left right.

(** ** Lemmas *)

Lemma fetch_in {A} bm (s : list A) k x : nth_error s k = Some x -> len s < 2 ^ 63 -> fetch bm s (Z.of_nat k + 1) = Ok x.
Proof.
  intros H B. pose proof (nth_error_len _ _ _ H) as L. unfold fetch, seq_verify. rewrite !(u64_small (Z.of_nat k + 1)) by lia.
  rewrite check_verifyIndex by lia. cbn [bind]. replace (Z.of_nat k + 1 - 1) with (Z.of_nat k) by lia. rewrite u64_small by lia.
  destruct (Z.ltb_spec (Z.of_nat k) (len s)); [|lia]. rewrite Nat2Z.id, H. reflexivity.
Qed.
Lemma seq_oob {A} (s : list A) i : 0 <= i < 2 ^ 64 -> ~ (1 <= i <= len s) -> check Debug (seq_verify s i) = Throw OutOfRange.
Proof.
  intros Hi H. unfold check, seq_verify, verifyIndex, throw_if. cbn [debug]. rewrite u64_small by exact Hi.
  destruct ((i <? 1) || (len s <? i)) eqn:E; [reflexivity|lia].
Qed.
Lemma fetch_oob {A} (s : list A) i : 0 <= i < 2 ^ 64 -> ~ (1 <= i <= len s) -> fetch Debug s i = Throw OutOfRange.
Proof. intros Hi H. unfold fetch. rewrite seq_oob by assumption. reflexivity. Qed.
Lemma fetch_release {A} (s : list A) i : len s < 2 ^ 63 -> 0 <= i < 2 ^ 64 -> ~ (1 <= i <= len s) -> fetch Release s i = UB.
Proof.
  intros B Hi H. unfold fetch. cbn [check debug bind]. rewrite (u64_small i) by exact Hi. pose proof (len_nonneg s).
  destruct (Z.eq_dec i 0) as [->|].
  - change (u64 (0 - 1)) with (2 ^ 64 - 1). destruct (Z.ltb_spec (2 ^ 64 - 1) (len s)); [lia|reflexivity].
  - rewrite u64_small by lia. destruct (Z.ltb_spec (i - 1) (len s)); [lia|reflexivity].
Qed.

Lemma upd_nth {A} (x : A) : forall k s, (k < length s)%nat -> exists s', upd k x s = Ok s' /\ length s' = length s
  /\ nth_error s' k = Some x /\ forall j, j <> k -> nth_error s' j = nth_error s j.
Proof.
  induction k as [|k IH]; intros [|y s] H; cbn [length] in H; try lia.
  - exists (x :: s). split; [reflexivity|]. split; [reflexivity|]. split; [reflexivity|]. intros [|j] Hj; [congruence|reflexivity].
  - destruct (IH s ltac:(lia)) as (s' & E & L & N & O). exists (y :: s'). cbn [upd]. rewrite E. split; [reflexivity|].
    split; [cbn [length]; lia|]. split; [exact N|]. intros [|j] Hj; [reflexivity|]. cbn. apply O. congruence.
Qed.

Lemma store_in {A} bm (s : list A) k x : Z.of_nat k < len s -> len s < 2 ^ 63 ->
  exists s', store bm s (Z.of_nat k + 1) x = Ok s' /\ len s' = len s /\ fetch bm s' (Z.of_nat k + 1) = Ok x
    /\ forall j, j <> k -> nth_error s' j = nth_error s j.
Proof.
  intros H B. destruct (upd_nth x k s) as (s' & E & L & N & O); [unfold len in H; lia|]. exists s'.
  unfold store, seq_verify. rewrite !(u64_small (Z.of_nat k + 1)) by lia. rewrite check_verifyIndex by lia. cbn [bind].
  replace (Z.of_nat k + 1 - 1) with (Z.of_nat k) by lia. rewrite u64_small by lia.
  destruct (Z.ltb_spec (Z.of_nat k) (len s)); [|lia]. rewrite Nat2Z.id, E. split; [reflexivity|].
  assert (L' : len s' = len s) by (unfold len; lia). split; [exact L'|]. split; [|exact O]. apply fetch_in; [exact N|lia].
Qed.
Lemma store_oob {A} (s : list A) i x : 0 <= i < 2 ^ 64 -> ~ (1 <= i <= len s) -> store Debug s i x = Throw OutOfRange.
Proof. intros Hi H. unfold store. rewrite seq_oob by assumption. reflexivity. Qed.

Lemma d_XSSr_in bm d l1 l2 l3 : d_xss d = l1 ++ l2 ++ l3 -> l2 <> [] -> len (d_xss d) < 2 ^ 63 -> d_XSSr bm d (len l1 + 1) (len l2) = Ok l2.
Proof.
  intros E Hne B. pose proof (len_nonneg l1). pose proof (len_nonneg l3).
  assert (P : 1 <= len l2) by (destruct l2 as [|? r]; [congruence|rewrite len_cons; pose proof (len_nonneg r); lia]).
  assert (L : len (d_xss d) = len l1 + len l2 + len l3) by (rewrite E, !len_app; lia).
  unfold d_XSSr, seq_verify. rewrite !(u64_small (len l1 + 1)) by lia. rewrite check_verifyIndex by lia. cbn [bind].
  rewrite (u64_small (len l1 + 1 + len l2 - 1)) by lia. rewrite check_verifyIndex by lia. cbn [bind].
  rewrite s64_small by lia. rewrite u64_small by lia. unfold read_range, slice. rewrite E at 1. rewrite !len_app.
  destruct ((0 <=? len l1 + 1 - 1) && _ && _) eqn:E'; [|lia]. f_equal. rewrite E.
  replace (Z.to_nat (len l1 + 1 - 1)) with (length l1) by (unfold len; lia).
  replace (Z.to_nat (len l1 + 1 - 1 + len l2 - (len l1 + 1 - 1))) with (length l2) by (unfold len; lia).
  rewrite skipn_app, skipn_all, Nat.sub_diag. cbn [skipn app]. rewrite firstn_app, Nat.sub_diag, firstn_all. cbn [firstn]. apply app_nil_r.
Qed.
Lemma d_XSSr_oob d i n : 0 <= i < 2 ^ 64 -> 1 <= i + n < 2 ^ 64 -> ~ (1 <= i <= len (d_xss d) /\ 1 <= i + n - 1 <= len (d_xss d)) ->
  d_XSSr Debug d i n = Throw OutOfRange.
Proof.
  intros Hi Hn H. unfold d_XSSr. destruct (Z_le_dec 1 i) as [H1|H1].
  2:{ rewrite seq_oob by lia. reflexivity. }
  destruct (Z_le_dec i (len (d_xss d))) as [H2|H2].
  2:{ rewrite seq_oob by lia. reflexivity. }
  unfold seq_verify at 1. rewrite u64_small by lia. rewrite check_verifyIndex by lia. cbn [bind].
  rewrite seq_oob by lia. reflexivity.
Qed.

(** ** Views on the XSS array of a table *)

(** A view given by iterators into the XSS array of the table. *)
Definition tview (d : tdata) (b e : Z) : view := View (d_xss d) b e.

Lemma piece_content (pre w post : list double) b e : len (pre ++ w ++ post) < max_words -> b = len pre -> e = len pre + len w ->
  content (View (pre ++ w ++ post) b e) w.
Proof.
  intros B -> ->. split; [|cbn; lia]. exists pre, post. cbn [buf vbeg vend]. split; [reflexivity|]. split; [reflexivity|].
  rewrite !len_app in *. pose proof (len_nonneg post). lia.
Qed.
