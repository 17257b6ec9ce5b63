(** Property theorems C04 and C25 (dosimetry): table data and tables built from blocks. *)
From Coq Require Import ZArith Bool List Lia Ascii.
From Coq Require Import ZifyBool ZifyNat.
From Verif Require Export PropsAtomic DosimetryTable.
Import ListNotations.
Open Scope Z_scope.

(** ** C04 *)

(** Reading: IZ, AW, NXS, JXS and XSS give element i of the array for 1 <= i <= size, in both builds. *)
Theorem C04_one_based_access : forall bm d i, data_wf d -> len (d_xss d) < 2 ^ 63 ->
  (1 <= i <= 16 -> exists z a n, nth_error (d_iz d) (Z.to_nat (i - 1)) = Some z /\ d_IZ bm d i = Ok z
      /\ nth_error (d_aw d) (Z.to_nat (i - 1)) = Some a /\ d_AW bm d i = Ok a
      /\ nth_error (d_nxs d) (Z.to_nat (i - 1)) = Some n /\ d_NXS bm d i = Ok n)
  /\ (1 <= i <= 32 -> exists j, nth_error (d_jxs d) (Z.to_nat (i - 1)) = Some j /\ d_JXS bm d i = Ok j)
  /\ (1 <= i <= len (d_xss d) -> exists x, nth_error (d_xss d) (Z.to_nat (i - 1)) = Some x /\ d_XSS bm d i = Ok x).
Proof.
  intros bm d i (H1 & H2 & H3 & H4) H5.
  assert (G : forall A (s : list A), len s < 2 ^ 63 -> 1 <= i <= len s -> exists x, nth_error s (Z.to_nat (i - 1)) = Some x /\ fetch bm s i = Ok x).
  { intros A s B Hi. destruct (nth_error s (Z.to_nat (i - 1))) as [x|] eqn:E.
    - exists x. split; [reflexivity|]. pose proof (fetch_in bm s _ _ E B) as F. replace (Z.of_nat (Z.to_nat (i - 1)) + 1) with i in F by lia. exact F.
    - apply nth_error_None in E. unfold len in Hi. lia. }
  split; [|split]; intros Hi.
  - destruct (G _ (d_iz d)) as (z & ? & ?); [lia|lia|]. destruct (G _ (d_aw d)) as (a & ? & ?); [lia|lia|].
    destruct (G _ (d_nxs d)) as (n & ? & ?); [lia|lia|]. exists z, a, n. repeat split; assumption.
  - apply G; lia.
  - apply G; lia.
Qed.
Print Assumptions C04_one_based_access.

(** Every other index throws out_of_range in a Debug build. *)
Theorem C04_out_of_range : forall d i, data_wf d -> 0 <= i < 2 ^ 64 ->
  (~ 1 <= i <= 16 -> d_IZ Debug d i = Throw OutOfRange /\ d_AW Debug d i = Throw OutOfRange /\ d_NXS Debug d i = Throw OutOfRange)
  /\ (~ 1 <= i <= 32 -> d_JXS Debug d i = Throw OutOfRange)
  /\ (~ 1 <= i <= len (d_xss d) -> d_XSS Debug d i = Throw OutOfRange /\ d_IXSS Debug d i = Throw OutOfRange).
Proof.
  intros d i (H1 & H2 & H3 & H4) Hi. unfold d_IZ, d_AW, d_NXS, d_JXS, d_XSS, d_IXSS.
  split; [|split]; intros N; [split; [|split]| |split]; try (apply fetch_oob; [exact Hi|lia]).
  rewrite fetch_oob by assumption. reflexivity.
Qed.
Print Assumptions C04_out_of_range.

(** Without the check (Release) such an access is outside the array. *)
Theorem C04_release_unchecked : forall d i, data_wf d -> len (d_xss d) < 2 ^ 63 -> 0 <= i < 2 ^ 64 ->
  (~ 1 <= i <= 32 -> d_JXS Release d i = UB) /\ (~ 1 <= i <= len (d_xss d) -> d_XSS Release d i = UB).
Proof. intros d i (H1 & H2 & H3 & H4) B Hi. split; intros N; apply fetch_release; lia. Qed.
Print Assumptions C04_release_unchecked.

(** Writing x at i: size kept, element i is x, every other element as before. *)
Theorem C04_write : forall A bm (s : list A) i x, len s < 2 ^ 63 -> 1 <= i <= len s ->
  exists s', store bm s i x = Ok s' /\ len s' = len s /\ fetch bm s' i = Ok x
    /\ forall j, 1 <= j <= len s -> j <> i -> fetch bm s' j = fetch bm s j.
Proof.
  intros A bm s i x B Hi. destruct (store_in bm s (Z.to_nat (i - 1)) x ltac:(lia) B) as (s' & E & L & F & O).
  replace (Z.of_nat (Z.to_nat (i - 1)) + 1) with i in E, F by lia. exists s'. split; [exact E|]. split; [exact L|]. split; [exact F|].
  intros j Hj N. specialize (O (Z.to_nat (j - 1)) ltac:(lia)). destruct (nth_error s (Z.to_nat (j - 1))) as [y|] eqn:Ey.
  - pose proof (fetch_in bm s _ _ Ey B) as G. pose proof (fetch_in bm s' _ _ O ltac:(lia)) as G'.
    replace (Z.of_nat (Z.to_nat (j - 1)) + 1) with j in G, G' by lia. congruence.
  - apply nth_error_None in Ey. unfold len in Hj. lia.
Qed.
Print Assumptions C04_write.
Theorem C04_write_out_of_range : forall A (s : list A) i x, 0 <= i < 2 ^ 64 -> ~ 1 <= i <= len s -> store Debug s i x = Throw OutOfRange.
Proof. intros. apply store_oob; assumption. Qed.
Print Assumptions C04_write_out_of_range.

(** XSS( i, n ): the n words from word i, and a range that starts or ends outside throws (Debug). *)
Theorem C04_range : forall bm d before words after, d_xss d = before ++ words ++ after -> words <> [] -> len (d_xss d) < 2 ^ 63 ->
  d_XSSr bm d (len before + 1) (len words) = Ok words.
Proof. exact d_XSSr_in. Qed.
Print Assumptions C04_range.
Theorem C04_range_out_of_range : forall d i n, 0 <= i < 2 ^ 64 -> 1 <= i + n < 2 ^ 64 ->
  ~ (1 <= i <= len (d_xss d) /\ 1 <= i + n - 1 <= len (d_xss d)) -> d_XSSr Debug d i n = Throw OutOfRange.
Proof. exact d_XSSr_oob. Qed.
Print Assumptions C04_range_out_of_range.

Definition c04_data : tdata := TData (zeros 16) (dzeros 16) ([5; 92235] ++ zeros 14) ([1; 4] ++ zeros 30) [dbl 10; dbl 20; dbl 30].
Example C04_example : data_wf c04_data /\ d_NXS Debug c04_data 2 = Ok 92235 /\ d_XSS Release c04_data 3 = Ok (dbl 30)
  /\ d_XSS Debug c04_data 0 = Throw OutOfRange /\ d_XSS Debug c04_data 4 = Throw OutOfRange /\ d_JXS Debug c04_data 33 = Throw OutOfRange
  /\ d_XSSr Debug c04_data 2 2 = Ok [dbl 20; dbl 30] /\ d_XSSr Debug c04_data 2 3 = Throw OutOfRange
  /\ store Debug (d_xss c04_data) 2 (dbl 7) = Ok [dbl 10; dbl 7; dbl 30].
Proof. repeat split; vm_compute; reflexivity. Qed.

(** ** C25: dosimetry tables *)

(** The blocks are MTR and SIGD objects with the reactions [mts] and the tabulated cross sections
    [ts] (interpolation regions, energies, values); the table shows blocks with the same words. *)
Theorem C25_dosimetry_round_trip : forall bm z a zaid mtr sigd mts ts cs ws,
  mapM (fun t => let '(nbt, int, x, y) := t in td_generateXSS nbt int x y) ts = Ok cs -> bl_generateXSS true cs = Ok ws ->
  content (ad_v mtr) (map dbl mts) -> mt_NTR mtr = len mts -> content (bl_v sigd) ws -> bl_n sigd = len ts -> len mts = len ts -> mt_valid mts ->
  len mts + len ws < max_words -> 0 <= z -> 0 <= a -> 1000 * z + a < 2 ^ 32 ->
  exists t, dt_of bm z a (zaid ++ ["y"%char]) mtr sigd = Ok t
    /\ dt_zaid t = zaid ++ ["y"%char] /\ d_xss (dt_data t) = map dbl mts ++ ws
    /\ dt_length bm (dt_data t) = Ok (len mts + len ws) /\ dt_ZA bm (dt_data t) = Ok (1000 * z + a) /\ dt_NTR bm (dt_data t) = Ok (len mts)
    /\ content (ad_v (dt_mtr t)) (map dbl mts) /\ mt_shows bm (dt_mtr t) mts /\ mt_lookup (dt_mtr t) mts
    /\ content (bl_v (dt_sig t)) ws /\ bl_n (dt_sig t) = len ts
    /\ forall k nbt int x y, nth_error ts k = Some (nbt, int, x, y) ->
         exists d, bl_datum bm (dt_sig t) (Z.of_nat k + 1) = Ok d /\ td_shows bm d nbt int x y.
Proof.
  intros bm z a zaid mtr sigd mts ts cs ws G Gl Cm Nm Cs Ns L V B Hz Ha Hza.
  assert (Lc : len cs = len ts).
  { clear - G. revert cs G. induction ts as [|t ts IH]; intros cs G; [apply Ok_inj in G; subst; reflexivity|]. cbn [mapM] in G.
    destruct t as [[[nbt int] x] y]. destruct (td_generateXSS nbt int x y); try discriminate. cbn [bind] in G.
    destruct (mapM _ ts) eqn:E; try discriminate. cbn [bind] in G. apply Ok_inj in G. subst cs. rewrite !len_cons. rewrite (IH _ eq_refl). reflexivity. }
  assert (Ew : ws = bl_layout true cs) by (rewrite bl_generateXSS_ok in Gl; apply Ok_inj in Gl; congruence).
  destruct (dt_round_trip bm z a (zaid ++ ["y"%char]) mtr sigd (map dbl mts) cs
    (fun o => content (ad_v o) (map dbl mts) /\ mt_shows bm o mts /\ mt_lookup o mts)
    (fun o => content (bl_v o) ws /\ bl_n o = len ts /\ forall k nbt int x y, nth_error ts k = Some (nbt, int, x, y) ->
         exists d, bl_datum bm o (Z.of_nat k + 1) = Ok d /\ td_shows bm d nbt int x y)) as (t & T & T1 & T2 & _ & T3 & T4 & T5 & (T6 & T6' & T6'') & T7 & T8 & T9).
  - rewrite verifyType_spec. reflexivity.
  - exact Cm.
  - lia.
  - rewrite <- Ew. exact Cs.
  - lia.
  - rewrite <- Ew, len_map. exact B.
  - lia.
  - exact Hz.
  - exact Ha.
  - intros v Cv. destruct (mt_shows_has bm v mts V (content_has _ _ Cv)) as [M S]. exists (ArrayData v (len mts) 1).
    replace (len cs) with (len mts) by lia. split; [exact M|]. split; [exact Cv|]. split; [exact S|]. apply mt_lookup_content; assumption.
  - intros v Cv. rewrite <- Ew in Cv. destruct (C39_dosimetry_cross_sections bm v ts cs ws G Gl (content_has _ _ Cv)) as (o & M & Vo & No & D).
    exists o. rewrite Lc. split; [exact M|]. split; [rewrite Vo; exact Cv|]. split; [exact No|exact D].
  - exists t. rewrite <- Ew in *. rewrite len_map in *. replace (len mts) with (len cs) in * by lia.
    exact (conj T (conj T1 (conj T2 (conj T3 (conj T4 (conj T5 (conj T6 (conj T6' (conj T6'' (conj T7 (conj T8 T9))))))))))).
Qed.
Print Assumptions C25_dosimetry_round_trip.

(** Blocks that disagree on the number of reactions are rejected, and so is a ZAID that does not end in y. *)
Theorem C25_dosimetry_count_rejected : forall bm z a zaid mtr sigd wm ws, content (ad_v mtr) wm -> content (bl_v sigd) ws ->
  mt_NTR mtr <> bl_n sigd -> dt_of bm z a zaid mtr sigd = Throw StdException.
Proof. exact dt_rejects_count. Qed.
Print Assumptions C25_dosimetry_count_rejected.
Theorem C25_dosimetry_type_rejected : forall bm zaid c d, c <> "y"%char -> dt_make bm (zaid ++ [c]) d = Throw StdException.
Proof.
  intros bm zaid c d N. unfold dt_make. rewrite verifyType_spec. cbn [existsb]. destruct (Ascii.eqb_spec c "y"%char); [contradiction|]. reflexivity.
Qed.
Print Assumptions C25_dosimetry_type_rejected.

Example C25_dosimetry_example : exists cs m s t d,
  mapM (fun t => let '(nbt, int, x, y) := t in td_generateXSS nbt int x y) [([], [], [dbl 1; dbl 2], [dbl 3; dbl 4]); ([2], [5], [dbl 6; dbl 7], [dbl 8; dbl 9])] = Ok cs
  /\ mt_of [16; 102] = Ok m /\ bl_of Debug (sigd_gd Debug) true cs = Ok s
  /\ dt_of Debug 92 235 ["9"; "2"; "2"; "3"; "5"; "."; "1"; "0"; "y"]%char m s = Ok t
  /\ mt_MTs Debug (dt_mtr t) = Ok [16; 102] /\ dt_ZA Debug (dt_data t) = Ok 92235
  /\ bl_datum Debug (dt_sig t) 2 = Ok d /\ td_y Debug d = Ok [dbl 8; dbl 9]
  /\ d_JXS Debug (dt_data t) 6 = Ok 3 /\ d_JXS Debug (dt_data t) 7 = Ok 5.
Proof. do 5 eexists. conc. Qed.
