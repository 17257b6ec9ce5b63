(** The electron locator blocks (ELAS, BREME, EION), the array blocks of the photoatomic,
    photonuclear and dosimetry tables, and SWD, XPROB, SIGD, IXSU. *)
From Coq Require Import ZArith Bool List Lia.
From Coq Require Import ZifyBool ZifyNat.
From Verif Require Export ReactionNumbers.
Import ListNotations.
Open Scope Z_scope.

(** * All the ways to read an array block *)

Definition int_range (c : list Z) : Prop := Forall (fun n => - 2 ^ 31 <= n < 2 ^ 31) c.

(** The object shows the arrays: as a whole, value by value, as doubles or as integers; and in
    Debug it rejects array and element indices out of range. *)
Definition ad_reads (bm : build) (o : arrayData) (n : Z) (arrays : list (list double)) : Prop :=
  ad_n o = n /\ ad_m o = len arrays
  /\ (forall k c, nth_error arrays k = Some c -> ad_darray bm o (Z.of_nat k + 1) = Ok c)
  /\ (forall k c, nth_error arrays k = Some (map dbl c) -> int_range c -> ad_iarray bm o (Z.of_nat k + 1) = Ok c)
  /\ (forall k c j x, nth_error arrays k = Some c -> nth_error c j = Some x -> ad_dvalue bm o (Z.of_nat k + 1) (Z.of_nat j + 1) = Ok x)
  /\ (forall k c j z, nth_error arrays k = Some c -> nth_error c j = Some (dbl z) -> - 2 ^ 31 <= z < 2 ^ 31 ->
        ad_ivalue bm o (Z.of_nat k + 1) (Z.of_nat j + 1) = Ok z).

Lemma ad_reads_has bm v n arrays : all_len n arrays -> 0 <= n < 2 ^ 31 -> len arrays < 2 ^ 31 -> has v (concat arrays) ->
  ad_make v n (len arrays) = Ok (ArrayData v n (len arrays)) /\ ad_reads bm (ArrayData v n (len arrays)) n arrays.
Proof.
  intros H Hn Ha Hv. split; [apply ad_make_has; assumption|]. split; [reflexivity|]. split; [reflexivity|].
  split; [intros k c Hk; apply (ad_darray_has bm v n arrays H Hv Ha k c); [exact Hk|reflexivity]|].
  split; [intros k c Hk R; apply (ad_iarray_has bm v n arrays H Hv Ha k c); [exact Hk|reflexivity|exact R]|].
  split.
  - intros k c j x Hk Hj. apply (ad_dvalue_has bm v n arrays H Hv Hn Ha k c j x); auto.
  - intros k c j z Hk Hj R. apply (ad_ivalue_has bm v n arrays H Hv Hn Ha k c j z); auto.
Qed.

Lemma ad_reads_of bm n arrays : all_len n arrays -> arrays <> [] -> len arrays < 2 ^ 31 -> len (concat arrays) < max_words ->
  exists o, ad_of_arrays arrays = Ok o /\ content (ad_v o) (concat arrays) /\ ad_reads bm o n arrays.
Proof.
  intros H Hne Ha B. eexists. split; [apply ad_of_ok; eassumption|]. split; [apply own_content; exact B|].
  apply ad_reads_has; try assumption; [|apply content_has, own_content; exact B].
  destruct arrays as [|a r]; [congruence|]. inversion H as [|? ? E _]; subst. cbn [concat] in B. rewrite len_app in B.
  pose proof (len_nonneg a). pose proof (len_nonneg (concat r)). unfold max_words in B. lia.
Qed.

Lemma ad_of_ragged a arrays : ~ all_len (len a) (a :: arrays) -> ad_of_arrays (a :: arrays) = Throw StdException.
Proof. intros H. unfold ad_of_arrays, ad_generateXSS. rewrite ad_append_ragged by exact H. reflexivity. Qed.

(** * Electron blocks with locators *)

(** electron::TabulatedAngularDistribution and electron::TabulatedEnergyDistribution: an ArrayData
    of two arrays and the incident energy (src/ACEtk/electron/TabulatedAngularDistribution.hpp:25-62,
    src/ctor.hpp:16-21, 31-35, and the same lines of TabulatedEnergyDistribution). *)
Record electronDatum := ElectronDatum { ed_a : arrayData; ed_energy : double }.
Definition ed_of (e : double) (x cdf : list double) : outcome electronDatum :=
  a <- ad_of_arrays [x; cdf] ;; Ok (ElectronDatum a e).
Definition ed_make (e : double) (v : view) (la : Z) : outcome electronDatum :=
  a <- ad_make v la 2 ;; Ok (ElectronDatum a e).
Definition ed_L (o : electronDatum) : Z := ad_n (ed_a o).
Definition ed_x bm (o : electronDatum) : outcome (list double) := ad_darray bm (ed_a o) 1.
Definition ed_cdf bm (o : electronDatum) : outcome (list double) := ad_darray bm (ed_a o) 2.

(** base::ElectronBlockWithLocators, src/ACEtk/base/ElectronBlockWithLocators.hpp:22-24 *)
Record electronBlock := ElectronBlock { eb_v : view; eb_n : Z; eb_info : arrayData; eb_data : list electronDatum }.

(** The loop of src/ACEtk/base/ElectronBlockWithLocators/src/generateXSS.hpp:8-16: energies[index],
    lengths[index] and xss[index] are assigned, the words are appended to xss. *)
Fixpoint eb_append (n : Z) (index : nat) (blocks : list electronDatum) (energies lengths xss : list double)
  : outcome (list double * list double * list double) :=
  match blocks with
  | [] => Ok (energies, lengths, xss)
  | d :: r =>
      energies <- upd index (ed_energy d) energies ;;
      lengths <- upd index (dbl (ed_L d)) lengths ;;
      xss' <- upd index (dbl (len xss - n)) xss ;;
      words <- xss_all (ad_v (ed_a d)) ;;
      eb_append n (S index) r energies lengths (xss' ++ words)
  end.
(** generateXSS, generateXSS.hpp:1-22 *)
Definition eb_generateXSS (blocks : list electronDatum) : outcome (list double) :=
  let zeros := repeat (dbl 0) (length blocks) in
  r <- eb_append (len blocks) 0 blocks zeros zeros zeros ;;
  let '(energies, lengths, xss) := r in Ok (energies ++ lengths ++ xss).

(** verifyDataIndex.hpp:1-11 *)
Definition eb_verify (n index : Z) : outcome unit := verifyIndex (u64 index) 1 (u32 n).
(** conversion of the double ivalue returns to an unsigned type: undefined if negative *)
Definition nonneg_or_UB (z : Z) : outcome Z := if 0 <=? z then Ok z else UB.
(** LLOC( index ), ElectronBlockWithLocators.hpp:60-66: ivalue( 3, index ) + 1, as a double *)
Definition eb_LLOC_ bm (n : Z) (info : arrayData) (index : Z) : outcome Z :=
  _ <- check bm (eb_verify n index) ;; k <- ad_ivalue bm info 3 index ;; nonneg_or_UB (k + 1).
(** energy( index ), hpp:117-123; length( index ), hpp:133-139 *)
Definition eb_energy_ bm (n : Z) (info : arrayData) (index : Z) : outcome double :=
  _ <- check bm (eb_verify n index) ;; ad_dvalue bm info 1 index.
Definition eb_length_ bm (n : Z) (info : arrayData) (index : Z) : outcome Z :=
  _ <- check bm (eb_verify n index) ;; k <- ad_ivalue bm info 2 index ;; nonneg_or_UB k.

(** generateBlocks, generateBlocks.hpp:1-17.  3 * N() and 2 * length( index ) are computed in
    unsigned int. *)
Definition eb_generateBlocks bm (v : view) (n : Z) : outcome electronBlock :=
  let it := vbeg v + u32 (3 * u32 n) in
  info <- ad_make (sub v (vbeg v) it) (u32 n) 3 ;;
  let data := u64 (it - vbeg v) + 1 in
  ds <- mapM (fun index =>
      locator <- eb_LLOC_ bm n info index ;;
      left <- iter bm v (data + locator - 1) ;;
      l <- eb_length_ bm n info index ;;
      let right := left + u32 (2 * l) in
      e <- eb_energy_ bm n info index ;;
      ed_make e (sub v left right) l) (seqZ 1 (Z.to_nat (u32 n))) ;;
  Ok (ElectronBlock v n info ds).

(** Constructors, ctor.hpp:6-11, 43-44 (from data) and 54-59 (from iterators);
    ElasticAngularDistributionBlock/src/ctor.hpp:14-25, EnergyDistributionBlock/src/ctor.hpp:14-25 *)
Definition eb_of bm (blocks : list electronDatum) : outcome electronBlock :=
  l <- eb_generateXSS blocks ;; eb_generateBlocks bm (own l) (len blocks).
Definition eb_make bm (v : view) (n : Z) : outcome electronBlock := eb_generateBlocks bm v n.

(** N() (NA(), NB()), hpp:45; LLOC, energies(), energy, length, data( index ) (distribution( index )),
    hpp:60-154; lengths(), hpp:94-99, protected base, not re-exported by ELAS, BREME and EION. *)
Definition eb_N (o : electronBlock) : Z := u32 (eb_n o).
Definition eb_LLOC bm (o : electronBlock) (index : Z) : outcome Z := eb_LLOC_ bm (eb_n o) (eb_info o) index.
Definition eb_energies bm (o : electronBlock) : outcome (list double) := ad_darray bm (eb_info o) 1.
Definition eb_lengths bm (o : electronBlock) : outcome (list Z) := ad_iarray bm (eb_info o) 1.
Definition eb_energy bm (o : electronBlock) (index : Z) : outcome double := eb_energy_ bm (eb_n o) (eb_info o) index.
Definition eb_length bm (o : electronBlock) (index : Z) : outcome Z := eb_length_ bm (eb_n o) (eb_info o) index.
Definition eb_datum bm (o : electronBlock) (index : Z) : outcome electronDatum :=
  _ <- check bm (eb_verify (eb_n o) index) ;; at_ (eb_data o) index.

(** ** Specification *)

(** One table: incident energy, x values (cosines or outgoing energies) and cdf. *)
Record eb_in := EbIn { ei_e : double; ei_x : list double; ei_c : list double }.
Definition ei_valid (i : eb_in) : Prop := len (ei_c i) = len (ei_x i).
Definition ei_words (i : eb_in) : list double := ei_x i ++ ei_c i.
Definition ei_shows bm (o : electronDatum) (i : eb_in) : Prop :=
  ed_energy o = ei_e i /\ ed_L o = len (ei_x i) /\ ed_x bm o = Ok (ei_x i) /\ ed_cdf bm o = Ok (ei_c i).

(** The words: energies, lengths, offsets from the first data word, tables. *)
Definition eb_layout (is : list eb_in) : list double :=
  map ei_e is ++ map (fun i => dbl (len (ei_x i))) is ++ map dbl (starts 0 (map ei_words is)) ++ concat (map ei_words is).

Definition eb_shows bm (o : electronBlock) (is : list eb_in) : Prop :=
  eb_N o = len is /\ eb_energies bm o = Ok (map ei_e is)
  /\ (forall k i, nth_error is k = Some i ->
        eb_energy bm o (Z.of_nat k + 1) = Ok (ei_e i) /\ eb_length bm o (Z.of_nat k + 1) = Ok (len (ei_x i))
        /\ eb_LLOC bm o (Z.of_nat k + 1) = Ok (1 + len (concat (map ei_words (firstn k is))))
        /\ exists d, eb_datum bm o (Z.of_nat k + 1) = Ok d /\ ei_shows bm d i)
  /\ (forall i, (u64 i < 1 \/ len is < u64 i) ->
        eb_energy Debug o i = Throw OutOfRange /\ eb_length Debug o i = Throw OutOfRange
        /\ eb_LLOC Debug o i = Throw OutOfRange /\ eb_datum Debug o i = Throw OutOfRange).

(** A finished table object made from [i] (by either constructor). *)
Definition ei_holds (o : electronDatum) (i : eb_in) : Prop :=
  content (ad_v (ed_a o)) (ei_words i) /\ ed_energy o = ei_e i /\ ed_L o = len (ei_x i).

Lemma ed_of_ok bm i : ei_valid i -> 2 * len (ei_x i) < max_words ->
  exists o, ed_of (ei_e i) (ei_x i) (ei_c i) = Ok o /\ ei_holds o i /\ ei_shows bm o i.
Proof.
  intros V B. unfold ei_valid in V. destruct (ad_reads_of bm (len (ei_x i)) [ei_x i; ei_c i]) as (a & Ea & Ca & (N & _ & D & _)).
  - constructor; [reflexivity|constructor; [exact V|constructor]].
  - discriminate.
  - change (len [ei_x i; ei_c i]) with 2. lia.
  - cbn [concat]. rewrite app_nil_r, len_app. lia.
  - exists (ElectronDatum a (ei_e i)). unfold ed_of. rewrite Ea. split; [reflexivity|]. split.
    + split; [|split; [reflexivity|exact N]]. cbn [ed_a]. cbn [concat] in Ca. rewrite app_nil_r in Ca. exact Ca.
    + split; [reflexivity|]. split; [exact N|]. split; [exact (D 0%nat _ eq_refl)|exact (D 1%nat _ eq_refl)].
Qed.

Lemma ed_of_ragged e x c : len c <> len x -> ed_of e x c = Throw StdException.
Proof.
  intros H. unfold ed_of. rewrite ad_of_ragged; [reflexivity|]. intros A. inversion A as [|? ? _ A1]; subst.
  inversion A1; subst. congruence.
Qed.

Lemma ed_make_has bm v i : ei_valid i -> has v (ei_words i) ->
  exists o, ed_make (ei_e i) v (len (ei_x i)) = Ok o /\ ei_shows bm o i.
Proof.
  intros V Hv. pose proof (has_bounds _ _ Hv) as B. unfold ei_words in B. rewrite len_app in B. unfold ei_valid in V.
  pose proof (len_nonneg (ei_x i)).
  destruct (ad_reads_has bm v (len (ei_x i)) [ei_x i; ei_c i]) as (M & (N & _ & D & _)).
  - constructor; [reflexivity|constructor; [exact V|constructor]].
  - lia.
  - change (len [ei_x i; ei_c i]) with 2. lia.
  - cbn [concat]. rewrite app_nil_r. exact Hv.
  - change (len [ei_x i; ei_c i]) with 2 in *. unfold ed_make. rewrite M. eexists. split; [reflexivity|].
    split; [reflexivity|]. split; [exact N|]. split; [exact (D 0%nat _ eq_refl)|exact (D 1%nat _ eq_refl)].
Qed.

Lemma eb_append_spec pre es ls os data blocks is :
  Forall2 ei_holds blocks is ->
  length es = pre -> length ls = pre -> length os = pre ->
  let z := repeat (dbl 0) (length is) in
  eb_append (Z.of_nat pre + len is) pre blocks (es ++ z) (ls ++ z) (os ++ z ++ data)
  = Ok (es ++ map ei_e is, ls ++ map (fun i => dbl (len (ei_x i))) is,
        os ++ map dbl (starts (len data) (map ei_words is)) ++ data ++ concat (map ei_words is)).
Proof.
  intros H. revert pre es ls os data. induction H as [|d i blocks is (C & E & L) _ IH]; intros pre es ls os data Le Ll Lo z.
  - subst z. cbn. rewrite !app_nil_r. reflexivity.
  - subst z. cbn [length repeat eb_append app]. subst pre.
    rewrite (upd_mid es). cbn [bind]. rewrite <- Ll, (upd_mid ls). cbn [bind]. rewrite Ll, <- Lo, (upd_mid os). cbn [bind].
    rewrite (xss_all_content _ _ C). cbn [bind]. rewrite Lo.
    assert (O : len (os ++ dbl 0 :: repeat (dbl 0) (length is) ++ data) - (Z.of_nat (length es) + len (i :: is)) = len data).
    { rewrite len_app, len_cons, len_app, len_repeat, len_cons. unfold len at 1. rewrite Lo. unfold len; lia. }
    rewrite O, E, L.
    replace (es ++ ei_e i :: repeat (dbl 0) (length is)) with ((es ++ [ei_e i]) ++ repeat (dbl 0) (length is)) by las.
    replace (ls ++ dbl (len (ei_x i)) :: repeat (dbl 0) (length is)) with ((ls ++ [dbl (len (ei_x i))]) ++ repeat (dbl 0) (length is)) by las.
    replace ((os ++ dbl (len data) :: repeat (dbl 0) (length is) ++ data) ++ ei_words i)
      with ((os ++ [dbl (len data)]) ++ repeat (dbl 0) (length is) ++ data ++ ei_words i) by las.
    replace (Z.of_nat (length es) + len (i :: is)) with (Z.of_nat (S (length es)) + len is) by (rewrite len_cons; lia).
    rewrite (IH (S (length es)) (es ++ [ei_e i]) (ls ++ [dbl (len (ei_x i))]) (os ++ [dbl (len data)]) (data ++ ei_words i));
      try (rewrite app_length; cbn [length]; lia).
    cbn [map starts concat]. rewrite len_app. do 2 f_equal; [f_equal; las|las].
Qed.

Lemma eb_generateXSS_ok blocks is : Forall2 ei_holds blocks is -> eb_generateXSS blocks = Ok (eb_layout is).
Proof.
  intros H. unfold eb_generateXSS. pose proof (Forall2_len _ _ _ H) as L.
  assert (L' : len blocks = len is) by (unfold len; lia).
  pose proof (eb_append_spec 0 [] [] [] [] blocks is H eq_refl eq_refl eq_refl) as S. cbn zeta in S. cbn [app] in S.
  rewrite app_nil_r in S. rewrite L, L'. change (Z.of_nat 0 + len is) with (len is) in S. rewrite S. cbn [bind]. reflexivity.
Qed.

Section ElectronHas.
  Variables (bm : build) (v : view) (is : list eb_in).
  Hypothesis Hi : Forall ei_valid is.
  Hypothesis Hv : has v (eb_layout is).

  Lemma len_eb_layout : len (eb_layout is) = 3 * len is + len (concat (map ei_words is)).
  Proof.
    unfold eb_layout. rewrite !len_app, !len_map. replace (len (starts 0 (map ei_words is))) with (len is); [lia|].
    unfold len. rewrite length_starts, map_length. reflexivity.
  Qed.

  Definition eb_it : Z := vbeg v + 3 * len is.
  Definition eb_arrays : list (list double) :=
    [map ei_e is; map (fun i => dbl (len (ei_x i))) is; map dbl (starts 0 (map ei_words is))].
  Definition eb_ad : arrayData := ArrayData (sub v (vbeg v) eb_it) (len is) 3.

  Lemma eb_b : 3 * len is + len (concat (map ei_words is)) < 2 ^ 31 /\ 0 <= len is /\ 0 <= len (concat (map ei_words is)).
  Proof. pose proof (has_bounds _ _ Hv) as B. rewrite len_eb_layout in B. pose proof (len_nonneg is). pose proof (len_nonneg (concat (map ei_words is))). lia. Qed.

  Lemma eb_info_reads : forall b, ad_make (sub v (vbeg v) eb_it) (len is) 3 = Ok eb_ad /\ ad_reads b eb_ad (len is) eb_arrays.
  Proof.
    intros b. pose proof eb_b as B. assert (AL : all_len (len is) eb_arrays).
    { unfold eb_arrays. repeat constructor; rewrite ?len_map; try reflexivity. unfold len. rewrite length_starts, map_length. reflexivity. }
    apply (ad_reads_has b _ (len is) eb_arrays AL); [lia|change (len eb_arrays) with 3; lia|].
    apply content_has. apply (sub_content v [] (concat eb_arrays) (concat (map ei_words is))).
    - apply (has_eq _ _ _ Hv). unfold eb_layout, eb_arrays. las.
    - rewrite len_nil. lia.
    - rewrite (len_concat (len is)) by exact AL. change (len eb_arrays) with 3. unfold eb_it. rewrite len_nil. lia.
  Qed.

  Lemma eb_split k i : nth_error is k = Some i ->
    is = firstn k is ++ i :: skipn (S k) is /\ len (firstn k is) = Z.of_nat k.
  Proof.
    intros H. split; [|eapply len_firstn_nth; exact H]. clear Hi Hv. revert k H. induction is as [|a r IH]; intros [|k] H; try discriminate.
    - injection H as ->. reflexivity.
    - cbn [firstn skipn app]. f_equal. apply IH. exact H.
  Qed.

  Lemma eb_check i : 1 <= i <= len is -> forall b, check b (eb_verify (len is) i) = Ok tt.
  Proof. intros H b. pose proof eb_b. unfold eb_verify. rewrite u64_small, u32_small by lia. apply check_verifyIndex. exact H. Qed.

  Lemma eb_one k i : nth_error is k = Some i -> forall b,
    eb_energy_ b (len is) eb_ad (Z.of_nat k + 1) = Ok (ei_e i)
    /\ eb_length_ b (len is) eb_ad (Z.of_nat k + 1) = Ok (len (ei_x i))
    /\ eb_LLOC_ b (len is) eb_ad (Z.of_nat k + 1) = Ok (1 + len (concat (map ei_words (firstn k is)))).
  Proof.
    intros H b. destruct (eb_split k i H) as [S L]. destruct (eb_info_reads b) as [_ (_ & _ & _ & _ & D & I)]. pose proof eb_b as B.
    pose proof (nth_error_len _ _ _ H) as K.
    assert (W : len (concat (map ei_words is)) = len (concat (map ei_words (firstn k is))) + len (ei_x i) + len (ei_c i) + len (concat (map ei_words (skipn (Datatypes.S k) is)))).
    { rewrite S at 1. rewrite map_app, concat_app. cbn [map concat]. unfold ei_words at 2. rewrite !len_app. lia. }
    pose proof (len_nonneg (concat (map ei_words (firstn k is)))). pose proof (len_nonneg (ei_x i)). pose proof (len_nonneg (ei_c i)).
    pose proof (len_nonneg (concat (map ei_words (skipn (Datatypes.S k) is)))).
    unfold eb_energy_, eb_length_, eb_LLOC_. rewrite !eb_check by lia. cbn [bind]. split; [|split].
    - apply (D 0%nat (map ei_e is)); [reflexivity|]. apply map_nth_error. exact H.
    - pose proof (I 1%nat (map (fun i => dbl (len (ei_x i))) is) k (len (ei_x i)) eq_refl (map_nth_error (fun i => dbl (len (ei_x i))) k is H) ltac:(lia)) as I2.
      change (Z.of_nat 1 + 1) with 2 in I2. rewrite I2. cbn [bind]. unfold nonneg_or_UB. destruct (Z.leb_spec 0 (len (ei_x i))); [reflexivity|lia].
    - assert (N : nth_error (map dbl (starts 0 (map ei_words is))) k = Some (dbl (len (concat (map ei_words (firstn k is)))))).
      { apply map_nth_error. rewrite S at 1. rewrite map_app, starts_app. rewrite nth_error_app2; rewrite length_starts, map_length.
        - replace (k - length (firstn k is))%nat with 0%nat by (unfold len in L; lia). reflexivity.
        - unfold len in L. lia. }
      pose proof (I 2%nat _ k _ eq_refl N ltac:(lia)) as I3.
      change (Z.of_nat 2 + 1) with 3 in I3. rewrite I3. cbn [bind]. unfold nonneg_or_UB.
      destruct (Z.leb_spec 0 (len (concat (map ei_words (firstn k is))) + 1)); [f_equal; lia|lia].
  Qed.

  Lemma eb_has : exists o, eb_make bm v (len is) = Ok o /\ eb_v o = v /\ eb_shows bm o is.
  Proof.
    pose proof eb_b as B. pose proof (has_bounds _ _ Hv) as Bv. rewrite len_eb_layout in Bv.
    unfold eb_make, eb_generateBlocks. rewrite !(u32_small (len is)) by lia. rewrite (u32_small (3 * len is)) by lia.
    change (vbeg v + 3 * len is) with eb_it. rewrite (proj1 (eb_info_reads bm)). cbn [bind].
    replace (eb_it - vbeg v) with (3 * len is) by (unfold eb_it; lia). rewrite (u64_small (3 * len is)) by lia.
    replace (Z.to_nat (len is)) with (length is) by (unfold len; lia).
    match goal with |- context [mapM ?f (seqZ 1 _)] => destruct (mapM_seq f
      (fun k d => exists i, nth_error is k = Some i /\ ei_shows bm d i) (length is) 1 0) as (ds & E & Ld & R) end.
    { intros k Hk. destruct (nth_error is k) as [i|] eqn:Ek; [|apply nth_error_None in Ek; lia].
      destruct (eb_one k i Ek bm) as (E1 & E2 & E3). destruct (eb_split k i Ek) as [S L].
      replace (1 + Z.of_nat k) with (Z.of_nat k + 1) by lia. rewrite E1, E2, E3. cbn [bind].
      assert (V : ei_valid i) by (rewrite Forall_forall in Hi; apply Hi; eapply nth_error_In; exact Ek). pose proof V as V'. unfold ei_valid in V'.
      assert (W : len (concat (map ei_words is)) = len (concat (map ei_words (firstn k is))) + len (ei_x i) + len (ei_c i) + len (concat (map ei_words (skipn (Datatypes.S k) is)))).
      { rewrite S at 1. rewrite map_app, concat_app. cbn [map concat]. unfold ei_words at 2. rewrite !len_app. lia. }
      pose proof (len_nonneg (concat (map ei_words (firstn k is)))). pose proof (len_nonneg (ei_x i)). pose proof (len_nonneg (ei_c i)).
      pose proof (len_nonneg (concat (map ei_words (skipn (Datatypes.S k) is)))).
      rewrite (iter_has _ _ _ _ Hv) by lia. cbn [bind]. rewrite u32_small by lia.
      destruct (ed_make_has bm (sub v (vbeg v + (3 * len is + 1 + (1 + len (concat (map ei_words (firstn k is)))) - 1) - 1)
          (vbeg v + (3 * len is + 1 + (1 + len (concat (map ei_words (firstn k is)))) - 1) - 1 + 2 * len (ei_x i))) i V) as (d & Ed & Sd).
      { apply content_has. apply (sub_content v (map ei_e is ++ map (fun i => dbl (len (ei_x i))) is ++ map dbl (starts 0 (map ei_words is)) ++ concat (map ei_words (firstn k is)))
          (ei_words i) (concat (map ei_words (skipn (Datatypes.S k) is)))).
        - apply (has_eq _ _ _ Hv). unfold eb_layout. rewrite S at 4. rewrite map_app, concat_app. cbn [map concat]. las.
        - rewrite !len_app, !len_map. replace (len (starts 0 (map ei_words is))) with (len is) by (unfold len; rewrite length_starts, map_length; reflexivity). lia.
        - rewrite !len_app, !len_map. replace (len (starts 0 (map ei_words is))) with (len is) by (unfold len; rewrite length_starts, map_length; reflexivity).
          unfold ei_words at 3. rewrite len_app. lia. }
      exists d. split; [exact Ed|]. exists i. split; [exact Ek|exact Sd]. }
    rewrite E. cbn [bind]. eexists. split; [reflexivity|]. split; [reflexivity|].
    split; [unfold eb_N; cbn [eb_n]; apply u32_small; lia|].
    split. { destruct (eb_info_reads bm) as [_ (_ & _ & D & _)]. exact (D 0%nat _ eq_refl). }
    split.
    - intros k i Hk. destruct (eb_one k i Hk bm) as (E1 & E2 & E3). split; [exact E1|]. split; [exact E2|]. split; [exact E3|].
      pose proof (nth_error_len _ _ _ Hk) as K.
      destruct (nth_error ds k) as [d|] eqn:Ed; [|apply nth_error_None in Ed; unfold len in K; lia].
      exists d. unfold eb_datum. cbn [eb_n eb_data]. rewrite eb_check by lia. cbn [bind].
      split; [apply (at_has _ _ _ _ Ed); [reflexivity|unfold len in *; lia]|].
      destruct (R k d Ed) as (i' & Hi' & Sd). cbn [Nat.add] in Hi'. congruence.
    - intros i Hi'. assert (C : check Debug (eb_verify (len is) i) = Throw OutOfRange).
      { unfold check, eb_verify, verifyIndex, throw_if. cbn [debug]. rewrite (u32_small (len is)) by lia.
        destruct ((u64 i <? 1) || (len is <? u64 i)) eqn:E'; [reflexivity|lia]. }
      unfold eb_energy, eb_length, eb_LLOC, eb_datum, eb_energy_, eb_length_, eb_LLOC_. cbn [eb_n eb_info eb_data]. rewrite C. cbn [bind]. auto.
  Qed.

  (** lengths() reads the energies, not the lengths. *)
  Lemma eb_lengths_has o : eb_make bm v (len is) = Ok o -> eb_lengths bm o = mapM to_int (map ei_e is).
  Proof.
    intros M. destruct eb_has as (o' & M' & _ & (_ & E & _)). rewrite M in M'. apply Ok_inj in M'. subst o'.
    unfold eb_lengths, eb_energies, ad_darray, ad_iarray, ixssr in *.
    destruct (check bm (ad_verifyIndex (eb_info o) 1)); cbn [bind] in *; try discriminate. rewrite E. reflexivity.
  Qed.
End ElectronHas.

(** The block built from tables: same layout, same observations. *)
Lemma eb_of_ok bm blocks is : Forall2 ei_holds blocks is -> Forall ei_valid is -> len (eb_layout is) < max_words ->
  exists o, eb_of bm blocks = Ok o /\ content (eb_v o) (eb_layout is) /\ eb_shows bm o is.
Proof.
  intros H V B. pose proof (own_content _ B) as C. destruct (eb_has bm (own (eb_layout is)) is V (content_has _ _ C)) as (o & M & E & S).
  exists o. unfold eb_of. rewrite (eb_generateXSS_ok _ _ H). cbn [bind]. pose proof (Forall2_len _ _ _ H) as L.
  replace (len blocks) with (len is) by (unfold len; lia). split; [exact M|]. split; [rewrite E; exact C|exact S].
Qed.
