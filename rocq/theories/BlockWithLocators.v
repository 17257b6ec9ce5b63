(** [base::BlockWithLocators] and the cross section blocks built on it. *)
From Coq Require Import ZArith Bool List Lia.
From Coq Require Import ZifyBool ZifyNat.
From Verif Require Export TabulatedData.
Import ListNotations.
Open Scope Z_scope.

(** * Loops and vectors *)

(** for ( index = a; index < a + n; ++index ) *)
Fixpoint seqZ (a : Z) (n : nat) : list Z :=
  match n with O => [] | S n => a :: seqZ (a + 1) n end.

(** xss[k] = x; undefined if k is out of range. *)
Fixpoint upd {A} (k : nat) (x : A) (l : list A) : outcome (list A) :=
  match l, k with
  | [], _ => UB
  | _ :: r, O => Ok (x :: r)
  | a :: r, S k => r' <- upd k x r ;; Ok (a :: r')
  end.

(** v[ index - 1 ] for a vector of objects *)
Definition at_ {A} (l : list A) (index : Z) : outcome A :=
  let index := u64 (index - 1) in
  match nth_error l (Z.to_nat index) with Some x => Ok x | None => UB end.

Lemma mapM_seq {B} (f : Z -> outcome B) (R : nat -> B -> Prop) n a k0 :
  (forall k, (k < n)%nat -> exists d, f (a + Z.of_nat k) = Ok d /\ R (k0 + k)%nat d) ->
  exists ds, mapM f (seqZ a n) = Ok ds /\ length ds = n
    /\ forall k d, nth_error ds k = Some d -> R (k0 + k)%nat d.
Proof.
  revert a k0; induction n as [|n IH]; intros a k0 H; cbn [seqZ mapM].
  - exists []. repeat split. intros [|k] d; discriminate.
  - destruct (H 0%nat) as (d & Hd & Rd); [lia|].
    replace (a + Z.of_nat 0) with a in Hd by lia. rewrite Hd. cbn [bind].
    destruct (IH (a + 1) (S k0)) as (ds & Hds & Lds & Rds).
    { intros k Hk. destruct (H (S k)) as (d' & Hd' & Rd'); [lia|].
      exists d'. split; [rewrite <- Hd'; f_equal; lia|].
      replace (S k0 + k)%nat with (k0 + S k)%nat by lia. exact Rd'. }
    rewrite Hds. cbn [bind]. exists (d :: ds). split; [reflexivity|].
    split; [cbn; lia|]. intros [|k] d'; cbn [nth_error].
    + intros E; injection E as <-. rewrite Nat.add_0_r in *. exact Rd.
    + intros E. replace (k0 + S k)%nat with (S k0 + k)%nat by lia. apply Rds; exact E.
Qed.

Lemma at_has {A} (l : list A) k x i :
  nth_error l k = Some x -> i = Z.of_nat k + 1 -> len l < 2 ^ 63 -> at_ l i = Ok x.
Proof.
  intros H -> Hl. pose proof (nth_error_len _ _ _ H). unfold at_.
  rewrite u64_small by lia. replace (Z.to_nat (Z.of_nat k + 1 - 1)) with k by lia.
  rewrite H. reflexivity.
Qed.

Lemma upd_mid {A} (l1 : list A) y l2 x : upd (length l1) x (l1 ++ y :: l2) = Ok (l1 ++ x :: l2).
Proof.
  induction l1 as [|a l1 IH]; [reflexivity|]. cbn [length app upd]. rewrite IH. reflexivity.
Qed.

Lemma nth_split_len {A} (l : list A) k x : nth_error l k = Some x ->
  exists l1 l2, l = l1 ++ x :: l2 /\ length l1 = k.
Proof. intros H. destruct (nth_error_split _ _ H) as (l1 & l2 & -> & <-). eauto. Qed.

(** * BlockWithLocators *)

Section Block.
  Context {D : Type}.

  (** src/ACEtk/base/BlockWithLocators.hpp:19-26 *)
  Record blockWithLocators := BlockWL {
    bl_v : view; bl_n : Z; bl_locator : bool; bl_iter : Z; bl_data : list D }.

  (** The loop of src/ACEtk/base/BlockWithLocators/src/generateXSS.hpp:7-13.
      Data blocks are given by their XSS content ([data.begin(), data.end()]). *)
  Fixpoint bl_append (locator : bool) (n : Z) (index : nat) (blocks : list (list double))
      (acc : list double) : outcome (list double) :=
    match blocks with
    | [] => Ok acc
    | b :: r =>
        acc' <- upd index (dbl (if locator then len acc - n + 1 else len acc - n)) acc ;;
        bl_append locator n (S index) r (acc' ++ b)
    end.

  (** generateXSS, src/ACEtk/base/BlockWithLocators/src/generateXSS.hpp:1-16 *)
  Definition bl_generateXSS (locator : bool) (blocks : list (list double)) : outcome (list double) :=
    bl_append locator (len blocks) 0 blocks (repeat (dbl 0) (length blocks)).

  (** verifyDataIndex, src/ACEtk/base/BlockWithLocators/src/verifyDataIndex.hpp:1-11 *)
  Definition bl_verify (n index : Z) : outcome unit := verifyIndex (u64 index) 1 n.

  (** LLOC( index ), src/ACEtk/base/BlockWithLocators.hpp:68-74 *)
  Definition bl_LLOC_ bm (v : view) (n : Z) (locator : bool) (index : Z) : outcome Z :=
    _ <- check bm (bl_verify n index) ;;
    k <- ixss bm v index ;; Ok (u64 (if locator then k else k + 1)).
  Definition bl_LLOC bm (o : blockWithLocators) (index : Z) : outcome Z :=
    bl_LLOC_ bm (bl_v o) (bl_n o) (bl_locator o) index.

  (** generateBlocks, src/ACEtk/base/BlockWithLocators/src/generateBlocks.hpp:5-21;
      [gd locator left_right] is Derived::generateData. *)
  Definition bl_generateBlocks bm (gd : Z -> view -> outcome D)
      (v : view) (n : Z) (locator : bool) (iter_ : Z) : outcome (list D) :=
    mapM (fun index =>
      let data := u64 (iter_ - vbeg v) + 1 in
      loc <- bl_LLOC_ bm v n locator index ;;
      left <- iter bm v (data + loc - 1) ;;
      right <- (if index =? n then Ok (vend v)
                else l <- bl_LLOC_ bm v n locator (index + 1) ;; iter bm v (data + l - 1)) ;;
      gd loc (sub v left right)) (seqZ 1 (Z.to_nat n)).

  (** Constructor from data blocks, src/ACEtk/base/BlockWithLocators/src/ctor.hpp:6-13, 49-50 *)
  Definition bl_of bm gd (locator : bool) (blocks : list (list double)) : outcome blockWithLocators :=
    l <- bl_generateXSS locator blocks ;;
    let n := u32 (len blocks) in
    ds <- bl_generateBlocks bm gd (own l) n locator n ;;
    Ok (BlockWL (own l) n locator n ds).

  (** Constructor from iterators, ctor.hpp:63-71 with verifySize.hpp:1-14 *)
  Definition bl_make bm gd (v : view) (data : Z) (n : Z) (locator : bool) : outcome blockWithLocators :=
    _ <- throw_if (s64 (data - vbeg v) <? n) StdException ;;
    ds <- bl_generateBlocks bm gd v n locator data ;;
    Ok (BlockWL v n locator data ds).

  (** data( index ), src/ACEtk/base/BlockWithLocators.hpp:105-111 *)
  Definition bl_datum bm (o : blockWithLocators) (index : Z) : outcome D :=
    _ <- check bm (bl_verify (bl_n o) index) ;; at_ (bl_data o) index.

  (** ** Specification *)

  (** Locators (or offsets) of consecutive blocks: 1 (or 0) plus the number of
      words before the block in the data part. *)
  Fixpoint starts (from : Z) (blocks : list (list double)) : list Z :=
    match blocks with [] => [] | b :: r => from :: starts (from + len b) r end.

  Definition bl_layout (locator : bool) (blocks : list (list double)) : list double :=
    map dbl (starts (if locator then 1 else 0) blocks) ++ concat blocks.

  Lemma length_starts from blocks : length (starts from blocks) = length blocks.
  Proof. revert from; induction blocks as [|b r IH]; intros from; cbn; [reflexivity|]. rewrite IH. reflexivity. Qed.

  Lemma starts_app from l r : starts from (l ++ r) = starts from l ++ starts (from + len (concat l)) r.
  Proof.
    revert from; induction l as [|b l IH]; intros from; cbn [app starts concat].
    - rewrite len_nil, Z.add_0_r. reflexivity.
    - rewrite IH. rewrite len_app, Z.add_assoc. reflexivity.
  Qed.

  Lemma bl_append_spec locator n locs data blocks :
    n = len locs + len blocks ->
    bl_append locator n (length locs) blocks (locs ++ repeat (dbl 0) (length blocks) ++ data)
    = Ok (locs ++ map dbl (starts ((if locator then 1 else 0) + len data) blocks) ++ data ++ concat blocks).
  Proof.
    revert locs data; induction blocks as [|b r IH]; intros locs data Hn.
    - cbn. rewrite app_nil_r. reflexivity.
    - cbn [bl_append length repeat app]. rewrite upd_mid. cbn [bind].
      assert (E : (if locator then len (locs ++ dbl 0 :: repeat (dbl 0) (length r) ++ data) - n + 1
                   else len (locs ++ dbl 0 :: repeat (dbl 0) (length r) ++ data) - n)
                  = (if locator then 1 else 0) + len data).
      { rewrite len_app, len_cons, len_app, len_repeat. rewrite Hn, len_cons.
        unfold len at 3. destruct locator; unfold len; lia. }
      rewrite E.
      specialize (IH (locs ++ [dbl ((if locator then 1 else 0) + len data)]) (data ++ b)).
      rewrite app_length in IH. cbn [length] in IH.
      replace (length locs + 1)%nat with (S (length locs)) in IH by lia.
      replace ((locs ++ dbl ((if locator then 1 else 0) + len data) :: repeat (dbl 0) (length r) ++ data) ++ b)
        with ((locs ++ [dbl ((if locator then 1 else 0) + len data)]) ++ repeat (dbl 0) (length r) ++ data ++ b)
        by las.
      rewrite IH by (rewrite Hn, len_app, !len_cons, len_nil; lia).
      cbn [starts map concat]. rewrite len_app, Z.add_assoc. f_equal. las.
  Qed.

  Lemma bl_generateXSS_ok locator blocks :
    bl_generateXSS locator blocks = Ok (bl_layout locator blocks).
  Proof.
    unfold bl_generateXSS, bl_layout.
    pose proof (bl_append_spec locator (len blocks) [] [] blocks ltac:(rewrite len_nil; lia)) as H.
    cbn [app length] in H. rewrite app_nil_r in H.
    change (@len double []) with 0 in H. rewrite Z.add_0_r in H. exact H.
  Qed.

  Lemma len_bl_layout locator blocks : len (bl_layout locator blocks) = len blocks + len (concat blocks).
  Proof.
    unfold bl_layout. rewrite len_app, len_map. unfold len at 1. rewrite length_starts. reflexivity.
  Qed.

  Section Has.
    Variables (bm : build) (v : view) (locator : bool) (cs : list (list double)).
    Hypothesis Hv : has v (bl_layout locator cs).

    Lemma bl_bounds : len cs + len (concat cs) < 2 ^ 31.
    Proof. pose proof (has_bounds _ _ Hv) as B. rewrite len_bl_layout in B. lia. Qed.

    (** The k-th locator points to the k-th block. *)
    Lemma bl_LLOC_has pre c post i :
      cs = pre ++ c :: post -> i = len pre + 1 ->
      bl_LLOC_ bm v (len cs) locator i = Ok (1 + len (concat pre)).
    Proof.
      intros E ->. pose proof bl_bounds as B. subst cs.
      rewrite concat_app in B. rewrite !len_app, len_cons in B.
      pose proof (len_nonneg pre); pose proof (len_nonneg (concat pre)); pose proof (len_nonneg post);
        pose proof (len_nonneg (concat (c :: post))).
      unfold bl_LLOC_, bl_verify. rewrite u64_small by lia.
      rewrite check_verifyIndex by (rewrite len_app, len_cons; lia). cbn [bind].
      rewrite (ixss_at _ _ (map dbl (starts (if locator then 1 else 0) pre))
                 ((if locator then 1 else 0) + len (concat pre))
                 (map dbl (starts ((if locator then 1 else 0) + len (concat pre) + len c) post)
                  ++ concat (pre ++ c :: post))).
      - cbn [bind]. f_equal. destruct locator; rewrite u64_small; lia.
      - apply (has_eq _ _ _ Hv). unfold bl_layout. rewrite starts_app, map_app. cbn [starts map]. las.
      - rewrite len_map. unfold len. rewrite length_starts. reflexivity.
      - destruct locator; lia.
    Qed.

    Variable gd : Z -> view -> outcome D.
    Variable R : nat -> D -> Prop.
    Variable P : view -> list double -> Prop.
    Hypothesis HP : forall w l, content w l -> P w l.
    Hypothesis HPlast : forall l1 l2, bl_layout locator cs = l1 ++ l2 ->
      P (sub v (vbeg v + len l1) (vend v)) l2.
    Hypothesis Hgd : forall pre c post w,
      cs = pre ++ c :: post -> P w c ->
      exists d, gd (1 + len (concat pre)) w = Ok d /\ R (length pre) d.

    Lemma bl_blocks_has iter_ : iter_ = vbeg v + len cs ->
      exists ds, bl_generateBlocks bm gd v (len cs) locator iter_ = Ok ds
        /\ length ds = length cs /\ forall k d, nth_error ds k = Some d -> R k d.
    Proof.
      intros ->. unfold bl_generateBlocks.
      replace (Z.to_nat (len cs)) with (length cs) by (unfold len; lia).
      apply (mapM_seq _ R (length cs) 1 0).
      intros k Hk. cbn [Nat.add].
      destruct (nth_error cs k) as [c|] eqn:Ek; [|apply nth_error_None in Ek; lia].
      destruct (nth_split_len _ _ _ Ek) as (pre & post & Ecs & Lpre).
      pose proof bl_bounds as B. pose proof (has_bounds _ _ Hv) as Bv. rewrite len_bl_layout in Bv.
      assert (Lp : Z.of_nat k = len pre) by (unfold len; lia).
      assert (Lc : len (concat cs) = len (concat pre) + len c + len (concat post)).
      { rewrite Ecs, concat_app. cbn [concat]. rewrite !len_app. lia. }
      assert (Ln : len cs = len pre + 1 + len post) by (rewrite Ecs, len_app, len_cons; lia).
      pose proof (len_nonneg pre); pose proof (len_nonneg post); pose proof (len_nonneg (concat pre));
        pose proof (len_nonneg c); pose proof (len_nonneg (concat post)).
      replace (vbeg v + len cs - vbeg v) with (len cs) by lia.
      rewrite (u64_small (len cs)) by lia.
      rewrite (bl_LLOC_has pre c post _ Ecs) by lia. cbn [bind].
      rewrite (iter_has _ _ _ _ Hv) by lia. cbn [bind].
      set (left := vbeg v + (len cs + 1 + (1 + len (concat pre)) - 1) - 1).
      assert (Elay : bl_layout locator cs
                = (map dbl (starts (if locator then 1 else 0) cs) ++ concat pre) ++ c ++ concat post).
      { unfold bl_layout. rewrite Ecs at 2. rewrite concat_app. cbn [concat]. las. }
      assert (Ll : len (map dbl (starts (if locator then 1 else 0) cs) ++ concat pre) = len cs + len (concat pre)).
      { rewrite len_app, len_map. unfold len at 1. rewrite length_starts. reflexivity. }
      destruct post as [|c' post].
      - destruct (Z.eqb_spec (1 + Z.of_nat k) (len cs)) as [_|Hneq]; [|rewrite len_nil in Ln; lia].
        cbn [bind]. cbn [concat] in Elay. rewrite app_nil_r in Elay.
        destruct (Hgd pre c [] (sub v left (vend v)) Ecs) as (d & Hd & Rd).
        { pose proof (HPlast _ _ Elay) as HL. rewrite Ll in HL.
          replace left with (vbeg v + (len cs + len (concat pre))) by (unfold left; lia). exact HL. }
        exists d. split; [exact Hd|]. rewrite <- Lpre. exact Rd.
      - rewrite len_cons in Ln. pose proof (len_nonneg post).
        destruct (Z.eqb_spec (1 + Z.of_nat k) (len cs)) as [Heq|_]; [lia|].
        rewrite (bl_LLOC_has (pre ++ [c]) c' post) by
          (try (rewrite Ecs, <- app_assoc; reflexivity); rewrite len_app, len_cons, len_nil; lia).
        cbn [bind]. rewrite concat_app, len_app. cbn [concat]. rewrite app_nil_r.
        rewrite (iter_has _ _ _ _ Hv) by lia. cbn [bind].
        destruct (Hgd pre c (c' :: post) (sub v left (vbeg v + (len cs + 1 + (1 + (len (concat pre) + len c)) - 1) - 1)) Ecs)
          as (d & Hd & Rd).
        { apply HP. eapply sub_content.
          - rewrite <- Elay. exact Hv.
          - rewrite Ll. unfold left. lia.
          - rewrite Ll. lia. }
        exists d. split; [exact Hd|]. rewrite <- Lpre. exact Rd.
    Qed.
  End Has.

  (** Version for any view that starts with the block. *)
  Lemma bl_has bm v locator cs gd (R : nat -> D -> Prop) iter_ :
    has v (bl_layout locator cs) -> iter_ = vbeg v + len cs ->
    (forall pre c post w, cs = pre ++ c :: post -> has w c ->
       exists d, gd (1 + len (concat pre)) w = Ok d /\ R (length pre) d) ->
    exists ds, bl_generateBlocks bm gd v (len cs) locator iter_ = Ok ds
      /\ length ds = length cs /\ forall k d, nth_error ds k = Some d -> R k d.
  Proof.
    intros H E Hgd. apply (bl_blocks_has bm v locator cs H gd R has); auto.
    - intros w l C; apply content_has; exact C.
    - intros l1 l2 El. apply (sub_has_tail v l1 l2); [rewrite <- El; exact H|reflexivity].
  Qed.

  (** Version for a view that is exactly the block. *)
  Lemma bl_content bm v locator cs gd (R : nat -> D -> Prop) iter_ :
    content v (bl_layout locator cs) -> iter_ = vbeg v + len cs ->
    (forall pre c post w, cs = pre ++ c :: post -> content w c ->
       exists d, gd (1 + len (concat pre)) w = Ok d /\ R (length pre) d) ->
    exists ds, bl_generateBlocks bm gd v (len cs) locator iter_ = Ok ds
      /\ length ds = length cs /\ forall k d, nth_error ds k = Some d -> R k d.
  Proof.
    intros H E Hgd. apply (bl_blocks_has bm v locator cs (content_has _ _ H) gd R content); auto.
    intros l1 l2 El. apply (sub_content_tail v l1 l2); [rewrite <- El; exact H|reflexivity].
  Qed.

  Lemma bl_datum_has bm v n locator it ds k d i :
    nth_error ds k = Some d -> i = Z.of_nat k + 1 -> len ds = n -> n < 2 ^ 31 ->
    bl_datum bm (BlockWL v n locator it ds) i = Ok d.
  Proof.
    intros Hk -> E B. pose proof (nth_error_len _ _ _ Hk). unfold bl_datum, bl_verify. cbn [bl_n bl_data].
    rewrite u64_small by lia. rewrite check_verifyIndex by lia. cbn [bind].
    apply (at_has _ _ _ _ Hk); lia.
  Qed.

  (** Out of range indices are rejected in Debug. *)
  Lemma bl_datum_oob v n locator it ds i :
    u64 i < 1 \/ n < u64 i -> bl_datum Debug (BlockWL v n locator it ds) i = Throw OutOfRange.
  Proof.
    intros H. unfold bl_datum, bl_verify, check, verifyIndex, throw_if. cbn [debug bl_n].
    destruct ((u64 i <? 1) || (n <? u64 i)) eqn:E; [reflexivity|lia].
  Qed.
End Block.
Arguments blockWithLocators : clear implicits.

(** * CrossSectionData *)

(** src/ACEtk/continuous/CrossSectionData/src/generateXSS.hpp:1-11 *)
Definition xs_generateXSS (index : Z) (values : list double) : list double :=
  dbl index :: dbl (len values) :: values.
(** src/ACEtk/continuous/CrossSectionData.hpp:37-47; int converted to size_t *)
Definition xs_energyIndex bm (v : view) : outcome Z := ixss_size bm v 1.
Definition xs_numberValues bm (v : view) : outcome Z := ixss_size bm v 2.
Definition xs_crossSections bm (v : view) : outcome (list double) :=
  n <- xs_numberValues bm v ;; xssr bm v 3 n.
(** src/ACEtk/continuous/CrossSectionData/src/ctor.hpp:24-28, verifySize.hpp:1-13 *)
Definition xs_make bm (v : view) : outcome view :=
  n <- xs_numberValues bm v ;; _ <- verify_at_least v (u32 (n + 2)) ;; Ok v.

Definition xs_shows bm (v : view) (index : Z) (values : list double) : Prop :=
  xs_energyIndex bm v = Ok index /\ xs_numberValues bm v = Ok (len values)
  /\ xs_crossSections bm v = Ok values.

Lemma xs_has bm v index values : 0 <= index < 2 ^ 31 -> has v (xs_generateXSS index values) ->
  xs_make bm v = Ok v /\ xs_shows bm v index values.
Proof.
  intros Hi H. unfold xs_generateXSS in H. pose proof (has_bounds _ _ H) as B. slen. nonneg.
  assert (N : xs_numberValues bm v = Ok (len values)).
  { apply (ixss_size_at _ _ [dbl index] _ values); [exact H|reflexivity|lia]. }
  split; [|split; [|split]].
  - unfold xs_make. rewrite N. cbn [bind]. rewrite u32_small by lia.
    rewrite (verify_at_least_has _ _ _ H) by (slen; lia). reflexivity.
  - apply (ixss_size_at _ _ [] _ (dbl (len values) :: values)); [exact H|reflexivity|lia].
  - exact N.
  - unfold xs_crossSections. rewrite N. cbn [bind].
    apply (xssr_has _ _ [dbl index; dbl (len values)] values []); [|reflexivity|reflexivity].
    rewrite app_nil_r. exact H.
Qed.

(** * PhotonProductionCrossSectionData *)

(** src/ACEtk/continuous/PhotonProductionCrossSectionData/src/generateXSS.hpp:1-12 *)
Definition px_generateXSS (index : Z) (values : list double) : list double :=
  dbl 13 :: dbl index :: dbl (len values) :: values.
(** PhotonProductionCrossSectionData.hpp:34-57; numberValues converts the double
    XSS( 3 ) to size_t by truncation *)
Definition px_MFTYPE bm (v : view) : outcome Z := n <- ixss bm v 1 ;; Ok (u32 n).
Definition px_energyIndex bm (v : view) : outcome Z := ixss_size bm v 2.
Definition px_numberValues bm (v : view) : outcome Z := x <- xss bm v 3 ;; trunc_to_size x.
Definition px_crossSections bm (v : view) : outcome (list double) :=
  n <- px_numberValues bm v ;; xssr bm v 4 n.
(** .../ctor.hpp:26-30, verifySize.hpp:1-13 *)
Definition px_make bm (v : view) : outcome view :=
  n <- px_numberValues bm v ;; _ <- verify_at_least v (u32 (n + 3)) ;; Ok v.

Definition px_shows bm (v : view) (index : Z) (values : list double) : Prop :=
  px_MFTYPE bm v = Ok 13 /\ px_energyIndex bm v = Ok index
  /\ px_numberValues bm v = Ok (len values) /\ px_crossSections bm v = Ok values.

Lemma px_has bm v index values : 0 <= index < 2 ^ 31 -> has v (px_generateXSS index values) ->
  px_make bm v = Ok v /\ px_shows bm v index values.
Proof.
  intros Hi H. unfold px_generateXSS in H. pose proof (has_bounds _ _ H) as B. slen. nonneg.
  assert (N : px_numberValues bm v = Ok (len values)).
  { unfold px_numberValues. rewrite (xss_at _ _ [dbl 13; dbl index] (dbl (len values)) values);
      [|exact H|reflexivity]. cbn [bind]. apply trunc_to_size_dbl. lia. }
  split; [|split; [|split; [|split]]].
  - unfold px_make. rewrite N. cbn [bind]. rewrite u32_small by lia.
    rewrite (verify_at_least_has _ _ _ H) by (slen; lia). reflexivity.
  - unfold px_MFTYPE. rewrite (ixss_at _ _ [] 13 (dbl index :: dbl (len values) :: values));
      [reflexivity|exact H|reflexivity|lia].
  - apply (ixss_size_at _ _ [dbl 13] _ (dbl (len values) :: values)); [exact H|reflexivity|lia].
  - exact N.
  - unfold px_crossSections. rewrite N. cbn [bind].
    apply (xssr_has _ _ [dbl 13; dbl index; dbl (len values)] values []); [|reflexivity|reflexivity].
    rewrite app_nil_r. exact H.
Qed.

(** * SIG: CrossSectionBlock *)

(** src/ACEtk/continuous/CrossSectionBlock.hpp, src/ctor.hpp: generateData is the
    base version, BlockWithLocators/src/generateData.hpp:5-13 (a zero locator
    only gives a message). *)
Definition sig_generateData bm (_ : Z) (v : view) : outcome view := xs_make bm v.

(** * SIGP: PhotonProductionCrossSectionBlock *)

Inductive photonProduction := PPCrossSection (v : view) | PPMultiplicity (t : prefixedTabulated).
(** src/ACEtk/continuous/PhotonProductionCrossSectionBlock/src/generateData.hpp:1-12 *)
Definition sigp_generateData bm (_ : Z) (v : view) : outcome photonProduction :=
  x <- deref (buf v) (vbeg v) ;;
  k <- to_int x ;;
  if k =? 13 then w <- px_make bm v ;; Ok (PPCrossSection w)
  else t <- ts_make bm v ;; Ok (PPMultiplicity t).
(** generateXSS.hpp:1-16 is [bl_generateXSS true] on the XSS contents. *)

(** * SIGH: SecondaryParticleProductionCrossSectionBlock *)
(** src/ACEtk/continuous/SecondaryParticleProductionCrossSectionBlock.hpp, src/ctor.hpp *)
Definition sigh_generateData bm (_ : Z) (v : view) : outcome prefixedTabulated := ts_make bm v.
