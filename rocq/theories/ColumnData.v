(** [base::ColumnData], [base::ArrayData], [continuous::InterpolationData]. *)
From Coq Require Import ZArith Bool List Lia.
From Coq Require Import ZifyBool ZifyNat.
From Verif Require Export Base.
Import ListNotations.
Open Scope Z_scope.

(** * ColumnData *)

(** The object: a view and the number of columns
    (src/ACEtk/base/ColumnData.hpp:19-25). *)
Record columnData := ColumnData { cd_v : view; cd_nc : Z }.

(** The loop of src/ACEtk/base/ColumnData/src/generateXSS.hpp:10-22. *)
Fixpoint cd_append (ne : Z) (columns : list (list double)) (acc : list double)
  : outcome (list double) :=
  match columns with
  | [] => Ok acc
  | c :: r => _ <- throw_if (negb (len c =? ne)) StdException ;; cd_append ne r (acc ++ c)
  end.

(** generateXSS( columns ), src/ACEtk/base/ColumnData/src/generateXSS.hpp:1-25.
    [columns[0]] of an empty vector is undefined. *)
Definition cd_generateXSS (columns : list (list double)) : outcome (list double) :=
  match columns with
  | [] => UB
  | c0 :: _ => let ne := len c0 in cd_append ne columns [dbl ne]
  end.

(** Constructor from columns, src/ACEtk/base/ColumnData/src/ctor.hpp:15-17
    (and the two and three column versions, lines 26-45). *)
Definition cd_of_columns (columns : list (list double)) : outcome columnData :=
  l <- cd_generateXSS columns ;; Ok (ColumnData (own l) (len columns)).

(** verifySize, src/ACEtk/base/ColumnData/src/verifySize.hpp:1-18 *)
Definition cd_verifySize (v : view) (ne nc : Z) : outcome unit :=
  let size := u64 (vend v - vbeg v) in
  throw_if (negb (size =? 0) && (size <? u64 (1 + ne * nc))) StdException.

(** Constructor from iterators, src/ACEtk/base/ColumnData/src/ctor.hpp:55-60 *)
Definition cd_make (v : view) (nc : Z) : outcome columnData :=
  ne <- (if vempty v then Ok 0 else x <- deref (buf v) (vbeg v) ;; trunc_to_size x) ;;
  _ <- cd_verifySize v ne nc ;;
  Ok (ColumnData v nc).

(** N(), src/ACEtk/base/ColumnData.hpp:44: the [int] is converted to size_t. *)
Definition cd_N (bm : build) (c : columnData) : outcome Z :=
  if vempty (cd_v c) then Ok 0 else ixss_size bm (cd_v c) 1.

(** C( column ) / column( column ), src/ACEtk/base/ColumnData.hpp:56-67 *)
Definition cd_column (bm : build) (c : columnData) (column : Z) : outcome (list double) :=
  n <- cd_N bm c ;; xssr bm (cd_v c) (2 + (column - 1) * n) n.

(** value( column, index ), src/ACEtk/base/ColumnData.hpp:75-79 *)
Definition cd_value (bm : build) (c : columnData) (column index : Z) : outcome double :=
  n <- cd_N bm c ;; xss bm (cd_v c) (2 + (column - 1) * n + index - 1).

(** ** Specification *)

(** The layout of n columns: the common length, then the columns. *)
Definition cd_layout (ne : Z) (columns : list (list double)) : list double :=
  dbl ne :: concat columns.

Definition all_len (ne : Z) (columns : list (list double)) : Prop :=
  Forall (fun c => len c = ne) columns.

Lemma cd_append_spec ne cols acc :
  all_len ne cols -> cd_append ne cols acc = Ok (acc ++ concat cols).
Proof.
  revert acc; induction cols as [|c cols IH]; intros acc H; cbn [cd_append concat].
  - rewrite app_nil_r. reflexivity.
  - inversion H as [|c' cols' Hc Hcols]; subst.
    rewrite Z.eqb_refl. cbn. rewrite IH by assumption. rewrite <- app_assoc. reflexivity.
Qed.

Lemma cd_append_ragged ne cols acc :
  ~ all_len ne cols -> cd_append ne cols acc = Throw StdException.
Proof.
  revert acc; induction cols as [|c cols IH]; intros acc H; cbn [cd_append].
  - exfalso; apply H; constructor.
  - destruct (Z.eqb_spec (len c) ne) as [E|E]; cbn; [|reflexivity].
    apply IH. intros Hc. apply H. constructor; assumption.
Qed.

Lemma cd_generateXSS_ok c0 cols :
  all_len (len c0) (c0 :: cols) ->
  cd_generateXSS (c0 :: cols) = Ok (cd_layout (len c0) (c0 :: cols)).
Proof. intros H. unfold cd_generateXSS. rewrite cd_append_spec by exact H. reflexivity. Qed.

Lemma cd_generateXSS_inv cols l :
  cd_generateXSS cols = Ok l ->
  exists ne, cols <> [] /\ all_len ne cols /\ l = cd_layout ne cols.
Proof.
  destruct cols as [|c0 cols]; [discriminate|]. intros H.
  unfold cd_generateXSS in H.
  assert (D : all_len (len c0) (c0 :: cols) \/ ~ all_len (len c0) (c0 :: cols)).
  { clear H. unfold all_len. destruct (Forall_dec (fun c => len c = len c0) ltac:(intros; apply Z.eq_dec) (c0 :: cols)); auto. }
  destruct D as [D|D].
  - rewrite cd_append_spec in H by exact D. injection H as <-.
    exists (len c0). split; [discriminate|]. split; [exact D|reflexivity].
  - rewrite cd_append_ragged in H by exact D. discriminate.
Qed.

Lemma len_concat ne (cols : list (list double)) :
  all_len ne cols -> len (concat cols) = len cols * ne.
Proof.
  induction 1 as [|c cols Hc _ IH]; [reflexivity|]. cbn [concat]. slen. lia.
Qed.

Lemma concat_split {A} (cols : list (list A)) k c :
  nth_error cols k = Some c ->
  concat cols = concat (firstn k cols) ++ c ++ concat (skipn (S k) cols).
Proof.
  revert cols; induction k as [|k IH]; intros [|c0 cols] H; try discriminate.
  - injection H as ->. reflexivity.
  - cbn [nth_error] in H. cbn [concat firstn skipn]. rewrite <- app_assoc. f_equal. apply IH; exact H.
Qed.

Lemma all_len_firstn ne k cols : all_len ne cols -> all_len ne (firstn k cols).
Proof.
  intros H; revert k; induction H as [|c cols Hc H IH]; intros [|k]; cbn [firstn]; constructor; auto.
  apply IH.
Qed.

Lemma len_firstn_nth {A} (l : list A) k x : nth_error l k = Some x -> len (firstn k l) = Z.of_nat k.
Proof.
  intros H. unfold len. rewrite firstn_length_le; [reflexivity|].
  assert (k < length l)%nat by (apply nth_error_Some; congruence). lia.
Qed.

Lemma has_cons_nonempty v x l : has v (x :: l) -> vempty v = false.
Proof.
  intros H. pose proof (has_bounds _ _ H). unfold vempty. slen; nonneg.
  destruct (Z.eqb_spec (vbeg v) (vend v)); [lia|reflexivity].
Qed.

Lemma deref_has v x l : has v (x :: l) -> deref (buf v) (vbeg v) = Ok x.
Proof.
  intros (pre & post & Hb1 & Hb2 & Hb3 & Hb4). rewrite Hb1, Hb2.
  pose proof (deref_app pre (x :: l) post 0 x eq_refl) as D.
  replace (len pre + Z.of_nat 0) with (len pre) in D by lia. exact D.
Qed.

Section Column.
  Variables (bm : build) (v : view) (ne : Z) (cols : list (list double)).
  Hypothesis Hlen : all_len ne cols.
  Hypothesis Hv : has v (cd_layout ne cols).
  Hypothesis Hne : 0 <= ne < 2 ^ 31.

  Lemma cd_N_has nc : cd_N bm (ColumnData v nc) = Ok ne.
  Proof.
    unfold cd_N, cd_layout in *. cbn [cd_v]. rewrite (has_cons_nonempty _ _ _ Hv).
    apply (ixss_size_at _ _ [] _ (concat cols)); [exact Hv|reflexivity|exact Hne].
  Qed.

  Lemma cd_column_has nc k c i :
    nth_error cols k = Some c -> i = Z.of_nat k + 1 ->
    cd_column bm (ColumnData v nc) i = Ok c.
  Proof.
    intros Hk ->. unfold cd_column. rewrite cd_N_has. cbn [bind cd_v].
    assert (Hc : len c = ne).
    { apply nth_error_In in Hk. unfold all_len in Hlen. rewrite Forall_forall in Hlen. auto. }
    unfold cd_layout in Hv.
    apply (xssr_has _ _ (dbl ne :: concat (firstn k cols)) c (concat (skipn (S k) cols))).
    - cbn [app]. rewrite <- (concat_split _ _ _ Hk). exact Hv.
    - rewrite len_cons, (len_concat ne) by (apply all_len_firstn; exact Hlen).
      rewrite (len_firstn_nth _ _ _ Hk). ring.
    - symmetry; exact Hc.
  Qed.

  Lemma cd_value_has nc k c j x i i' :
    nth_error cols k = Some c -> nth_error c j = Some x ->
    i = Z.of_nat k + 1 -> i' = Z.of_nat j + 1 ->
    cd_value bm (ColumnData v nc) i i' = Ok x.
  Proof.
    intros Hk Hj -> ->. unfold cd_value. rewrite cd_N_has. cbn [bind cd_v].
    assert (Hc : len c = ne).
    { apply nth_error_In in Hk. unfold all_len in Hlen. rewrite Forall_forall in Hlen. auto. }
    unfold cd_layout in Hv.
    eapply (xss_has _ _ _ _ (S (length (concat (firstn k cols)) + j)) x Hv).
    - cbn [nth_error]. rewrite (concat_split _ _ _ Hk).
      rewrite nth_error_app2 by lia.
      replace (length (concat (firstn k cols)) + j - length (concat (firstn k cols)))%nat with j by lia.
      rewrite nth_error_app1; [exact Hj|]. apply nth_error_Some; congruence.
    - assert (H : len (concat (firstn k cols)) = Z.of_nat k * ne).
      { rewrite (len_concat ne) by (apply all_len_firstn; exact Hlen).
        rewrite (len_firstn_nth _ _ _ Hk). reflexivity. }
      unfold len in H. lia.
  Qed.

  Lemma cd_make_has nc : nc = len cols -> cd_make v nc = Ok (ColumnData v nc).
  Proof.
    intros ->. unfold cd_make, cd_layout in *. rewrite (has_cons_nonempty _ _ _ Hv).
    rewrite (deref_has _ _ _ Hv). cbn [bind]. rewrite trunc_to_size_dbl by lia. cbn [bind].
    unfold cd_verifySize, throw_if. pose proof (has_bounds _ _ Hv) as Hb.
    rewrite len_cons, (len_concat ne) in Hb by exact Hlen. nonneg.
    rewrite u64_small by lia. rewrite u64_small by nia.
    destruct (negb _ && _) eqn:E; [lia|reflexivity].
  Qed.
End Column.

(** * ArrayData *)

(** src/ACEtk/base/ArrayData.hpp:19-21; [nelements_] and [narrays_] are
    [unsigned int]. *)
Record arrayData := ArrayData { ad_v : view; ad_n : Z; ad_m : Z }.

(** src/ACEtk/base/ArrayData/src/generateXSS.hpp:1-28.  The values of type
    [Number] are converted to double on insertion; the model takes them as
    doubles (for integers: [map dbl]). *)
Fixpoint ad_append (n : Z) (arrays : list (list double)) (acc : list double)
  : outcome (list double) :=
  match arrays with
  | [] => Ok acc
  | a :: r => _ <- throw_if (negb (len a =? n)) StdException ;; ad_append n r (acc ++ a)
  end.
Definition ad_generateXSS (arrays : list (list double)) : outcome (list double) :=
  match arrays with
  | [] => Ok []
  | a :: _ => ad_append (len a) arrays []
  end.

(** Constructor from arrays, src/ACEtk/base/ArrayData/src/ctor.hpp:6-10, 33-37
    (and the two to six array versions).  n and m are converted to unsigned int. *)
Definition ad_of_arrays (arrays : list (list double)) : outcome arrayData :=
  l <- ad_generateXSS arrays ;;
  Ok (ArrayData (own l) (u32 (match arrays with [] => 0 | a :: _ => len a end)) (u32 (len arrays))).

(** verifySize, src/ACEtk/base/ArrayData/src/verifySize.hpp:1-13: the product is
    computed in [unsigned int], the comparison in [long]. *)
Definition ad_verifySize (v : view) (n m : Z) : outcome unit :=
  throw_if (s64 (vend v - vbeg v) <? u32 (n * m)) StdException.

(** Constructor from iterators, src/ACEtk/base/ArrayData/src/ctor.hpp:149-154 *)
Definition ad_make (v : view) (n m : Z) : outcome arrayData :=
  _ <- ad_verifySize v n m ;; Ok (ArrayData v n m).

(** verifyIndex, src/ACEtk/base/ArrayData/src/verifyIndex.hpp *)
Definition ad_verifyIndex (a : arrayData) (array : Z) : outcome unit :=
  verifyIndex (u64 array) 1 (ad_m a).
Definition ad_verifyIndex2 (a : arrayData) (array index : Z) : outcome unit :=
  _ <- ad_verifyIndex a array ;; verifyIndex (u64 index) 1 (ad_n a).

Definition check (bm : build) (o : outcome unit) : outcome unit :=
  if debug bm then o else Ok tt.

(** dvalue, src/ACEtk/base/ArrayData.hpp:61-67 *)
Definition ad_dvalue bm (a : arrayData) (array index : Z) : outcome double :=
  _ <- check bm (ad_verifyIndex2 a array index) ;;
  xss bm (ad_v a) ((array - 1) * ad_n a + index).
(** ivalue, src/ACEtk/base/ArrayData.hpp:75-81 (declared to return double; the
    value is the int) *)
Definition ad_ivalue bm (a : arrayData) (array index : Z) : outcome Z :=
  _ <- check bm (ad_verifyIndex2 a array index) ;;
  ixss bm (ad_v a) ((array - 1) * ad_n a + index).
(** darray, src/ACEtk/base/ArrayData.hpp:88-94 *)
Definition ad_darray bm (a : arrayData) (index : Z) : outcome (list double) :=
  _ <- check bm (ad_verifyIndex a index) ;;
  xssr bm (ad_v a) (1 + (index - 1) * ad_n a) (ad_n a).
(** iarray, src/ACEtk/base/ArrayData.hpp:101-107 *)
Definition ad_iarray bm (a : arrayData) (index : Z) : outcome (list Z) :=
  _ <- check bm (ad_verifyIndex a index) ;;
  ixssr bm (ad_v a) (1 + (index - 1) * ad_n a) (ad_n a).

Lemma ad_append_spec n arrays acc :
  all_len n arrays -> ad_append n arrays acc = Ok (acc ++ concat arrays).
Proof.
  revert acc; induction arrays as [|c cols IH]; intros acc H; cbn [ad_append concat].
  - rewrite app_nil_r. reflexivity.
  - inversion H as [|c' cols' Hc Hcols]; subst.
    rewrite Z.eqb_refl. cbn. rewrite IH by assumption. rewrite <- app_assoc. reflexivity.
Qed.

Lemma ad_append_ragged ne cols acc :
  ~ all_len ne cols -> ad_append ne cols acc = Throw StdException.
Proof.
  revert acc; induction cols as [|c cols IH]; intros acc H; cbn [ad_append].
  - exfalso; apply H; constructor.
  - destruct (Z.eqb_spec (len c) ne) as [E|E]; cbn; [|reflexivity].
    apply IH. intros Hc. apply H. constructor; assumption.
Qed.

Lemma ad_generateXSS_ok n arrays :
  all_len n arrays -> ad_generateXSS arrays = Ok (concat arrays).
Proof.
  destruct arrays as [|a arrays]; [reflexivity|]. intros H. cbn [ad_generateXSS].
  inversion H; subst. rewrite ad_append_spec by exact H. reflexivity.
Qed.

Lemma check_verifyIndex bm i a b : a <= i <= b -> check bm (verifyIndex i a b) = Ok tt.
Proof.
  intros H. unfold check, verifyIndex, throw_if. destruct (debug bm); [|reflexivity].
  destruct ((i <? a) || (b <? i)) eqn:E; [lia|reflexivity].
Qed.

Section Array.
  Variables (bm : build) (v : view) (n : Z) (arrays : list (list double)).
  Hypothesis Hlen : all_len n arrays.
  Hypothesis Hv : has v (concat arrays).
  Hypothesis Hn : 0 <= n < 2 ^ 31.
  Hypothesis Hm : len arrays < 2 ^ 31.
  Let a := ArrayData v n (len arrays).

  Lemma ad_make_has : ad_make v n (len arrays) = Ok a.
  Proof.
    unfold ad_make, ad_verifySize, throw_if. pose proof (has_bounds _ _ Hv) as Hb.
    rewrite (len_concat n) in Hb by exact Hlen. nonneg.
    rewrite s64_small by nia. rewrite u32_small by nia.
    destruct (_ <? _) eqn:E; [nia|reflexivity].
  Qed.

  Lemma ad_check1 k c : nth_error arrays k = Some c ->
    check bm (ad_verifyIndex a (Z.of_nat k + 1)) = Ok tt.
  Proof.
    intros Hk. apply nth_error_len in Hk. unfold ad_verifyIndex.
    rewrite u64_small by lia. apply check_verifyIndex. cbn. lia.
  Qed.
  Lemma ad_check2 k c j x : nth_error arrays k = Some c -> nth_error c j = Some x ->
    check bm (ad_verifyIndex2 a (Z.of_nat k + 1) (Z.of_nat j + 1)) = Ok tt.
  Proof.
    intros Hk Hj. pose proof (ad_check1 _ _ Hk) as H1.
    unfold check in *. destruct (debug bm); [|reflexivity]. unfold ad_verifyIndex2.
    rewrite H1. cbn [bind].
    assert (Hc : len c = n).
    { apply nth_error_In in Hk. unfold all_len in Hlen. rewrite Forall_forall in Hlen. auto. }
    apply nth_error_len in Hj. rewrite u64_small by lia.
    change (ad_n a) with n.
    pose proof (check_verifyIndex Debug (Z.of_nat j + 1) 1 n) as HC. cbn in HC. apply HC. lia.
  Qed.

  Lemma ad_darray_has k c i : nth_error arrays k = Some c -> i = Z.of_nat k + 1 ->
    ad_darray bm a i = Ok c.
  Proof.
    intros Hk ->. unfold ad_darray. rewrite (ad_check1 _ _ Hk). cbn [bind].
    assert (Hc : len c = n).
    { apply nth_error_In in Hk. unfold all_len in Hlen. rewrite Forall_forall in Hlen. auto. }
    apply (xssr_has _ _ (concat (firstn k arrays)) c (concat (skipn (S k) arrays))).
    - rewrite <- (concat_split _ _ _ Hk). exact Hv.
    - rewrite (len_concat n) by (apply all_len_firstn; exact Hlen).
      rewrite (len_firstn_nth _ _ _ Hk). change (ad_n a) with n. ring.
    - change (ad_n a) with n. congruence.
  Qed.

  Lemma ad_iarray_has k c i : nth_error arrays k = Some (map dbl c) -> i = Z.of_nat k + 1 ->
    Forall (fun n => - 2 ^ 31 <= n < 2 ^ 31) c ->
    ad_iarray bm a i = Ok c.
  Proof.
    intros Hk Hi Hc. pose proof (ad_darray_has _ _ _ Hk Hi) as H.
    unfold ad_darray, ad_iarray, ixssr in *. subst i. rewrite (ad_check1 _ _ Hk) in *.
    cbn [bind] in *. rewrite H. cbn [bind]. apply mapM_to_int_dbl; exact Hc.
  Qed.

  Lemma ad_xss_at k c j x : nth_error arrays k = Some c -> nth_error c j = Some x ->
    xss bm v ((Z.of_nat k + 1 - 1) * n + (Z.of_nat j + 1)) = Ok x.
  Proof.
    intros Hk Hj.
    eapply (xss_has _ _ _ _ (length (concat (firstn k arrays)) + j) x Hv).
    - rewrite (concat_split _ _ _ Hk).
      rewrite nth_error_app2 by lia.
      replace (length (concat (firstn k arrays)) + j - length (concat (firstn k arrays)))%nat with j by lia.
      rewrite nth_error_app1; [exact Hj|]. apply nth_error_Some; congruence.
    - assert (H : len (concat (firstn k arrays)) = Z.of_nat k * n).
      { rewrite (len_concat n) by (apply all_len_firstn; exact Hlen).
        rewrite (len_firstn_nth _ _ _ Hk). reflexivity. }
      unfold len in H. lia.
  Qed.

  Lemma ad_dvalue_has k c j x i i' : nth_error arrays k = Some c -> nth_error c j = Some x ->
    i = Z.of_nat k + 1 -> i' = Z.of_nat j + 1 -> ad_dvalue bm a i i' = Ok x.
  Proof.
    intros Hk Hj -> ->. unfold ad_dvalue. rewrite (ad_check2 _ _ _ _ Hk Hj). cbn [bind ad_v ad_n a].
    apply (ad_xss_at _ _ _ _ Hk Hj).
  Qed.

  Lemma ad_ivalue_has k c j z i i' : nth_error arrays k = Some c -> nth_error c j = Some (dbl z) ->
    - 2 ^ 31 <= z < 2 ^ 31 ->
    i = Z.of_nat k + 1 -> i' = Z.of_nat j + 1 -> ad_ivalue bm a i i' = Ok z.
  Proof.
    intros Hk Hj Hz -> ->. unfold ad_ivalue. rewrite (ad_check2 _ _ _ _ Hk Hj). cbn [bind ad_v ad_n a].
    unfold ixss. rewrite (ad_xss_at _ _ _ _ Hk Hj). cbn [bind]. apply to_int_dbl; exact Hz.
  Qed.
End Array.

(** * InterpolationData *)

(** generateXSS, src/ACEtk/continuous/InterpolationData/src/generateXSS.hpp:1-9 *)
Definition id_columns (boundaries interpolants : list Z) : list (list double) :=
  [ map dbl boundaries; map dbl interpolants ].

(** InterpolationData( name, boundaries, interpolants ),
    src/ACEtk/continuous/InterpolationData/src/ctor.hpp:16-21 *)
Definition id_generateXSS (boundaries interpolants : list Z) : outcome (list double) :=
  cd_generateXSS (id_columns boundaries interpolants).

(** InterpolationData( name, begin, end ), ctor.hpp:30-31 *)
Definition id_make (v : view) : outcome columnData := cd_make v 2.

(** NB, NBT, INT: src/ACEtk/continuous/InterpolationData.hpp:32-64 *)
Definition id_NB := cd_N.
Definition id_NBT bm c := cd_column bm c 1.
Definition id_INT bm c := cd_column bm c 2.

Definition id_layout (nbt int : list Z) : list double :=
  dbl (len nbt) :: map dbl nbt ++ map dbl int.

Lemma id_layout_cd nbt int : id_layout nbt int = cd_layout (len nbt) (id_columns nbt int).
Proof. unfold id_layout, cd_layout, id_columns. cbn. rewrite app_nil_r. reflexivity. Qed.

Lemma id_all_len nbt int : len int = len nbt -> all_len (len nbt) (id_columns nbt int).
Proof. intros H. repeat constructor; rewrite len_map; auto. Qed.

Lemma id_generateXSS_ok nbt int : len int = len nbt ->
  id_generateXSS nbt int = Ok (id_layout nbt int).
Proof.
  intros H. rewrite id_layout_cd. unfold id_generateXSS, id_columns.
  replace (len nbt) with (len (map dbl nbt)) by apply len_map.
  apply cd_generateXSS_ok. rewrite len_map. apply (id_all_len nbt int H).
Qed.

Lemma id_generateXSS_ragged nbt int : len int <> len nbt ->
  id_generateXSS nbt int = Throw StdException.
Proof.
  intros H. unfold id_generateXSS, cd_generateXSS, id_columns.
  apply cd_append_ragged. intros Hf. inversion Hf as [|? ? _ H1]; subst.
  inversion H1; subst. rewrite !len_map in *. congruence.
Qed.

Lemma id_generateXSS_inv nbt int l :
  id_generateXSS nbt int = Ok l -> len int = len nbt /\ l = id_layout nbt int.
Proof.
  intros H. destruct (Z.eq_dec (len int) (len nbt)) as [E|E].
  - rewrite (id_generateXSS_ok _ _ E) in H. injection H as <-. auto.
  - rewrite (id_generateXSS_ragged _ _ E) in H. discriminate.
Qed.

(** The values InterpolationData shows. *)
Definition id_shows bm (o : columnData) (nbt int : list Z) : Prop :=
  id_NB bm o = Ok (len nbt) /\ id_NBT bm o = Ok (map dbl nbt) /\ id_INT bm o = Ok (map dbl int).

Lemma id_has bm v nbt int : len int = len nbt -> has v (id_layout nbt int) ->
  id_make v = Ok (ColumnData v 2) /\ id_shows bm (ColumnData v 2) nbt int.
Proof.
  intros E H. pose proof (has_bounds _ _ H) as B. unfold id_layout in B. 
  assert (L : 0 <= len nbt < 2 ^ 31) by zl.
  rewrite id_layout_cd in H. pose proof (id_all_len _ _ E) as A.
  split; [exact (cd_make_has _ _ _ A H L _ eq_refl)|].
  split; [exact (cd_N_has bm _ _ _ H L 2)|].
  split.
  - exact (cd_column_has bm _ _ _ A H L 2 0 _ 1 eq_refl eq_refl).
  - exact (cd_column_has bm _ _ _ A H L 2 1 _ 2 eq_refl eq_refl).
Qed.
