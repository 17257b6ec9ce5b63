(** Blocks of reaction numbers and particle types (MTR, MTRP, MTRH, PTYPE, YP, YH) and the
    one- and five-array blocks (LQR, GPD, ESZ), HPD, NTRO and IXS. *)
From Coq Require Import ZArith Bool List Lia.
From Coq Require Import ZifyBool ZifyNat.
From Verif Require Export MultiDist FrameBlock.
Import ListNotations.
Open Scope Z_scope.

(** * Array blocks, from vectors or from a view *)

(** The array data object over [v] showing [arrays]. *)
Definition ad_shows (bm : build) (o : arrayData) (n : Z) (arrays : list (list double)) : Prop :=
  ad_n o = n /\ forall k c, nth_error arrays k = Some c -> ad_darray bm o (Z.of_nat k + 1) = Ok c.

Lemma ad_of_ok arrays n : all_len n arrays -> arrays <> [] -> len arrays < 2 ^ 31 -> len (concat arrays) < max_words ->
  ad_of_arrays arrays = Ok (ArrayData (own (concat arrays)) n (len arrays)).
Proof.
  intros H Hne Ha B. unfold ad_of_arrays. rewrite (ad_generateXSS_ok n) by exact H. cbn [bind].
  destruct arrays as [|a r]; [congruence|]. inversion H as [|? ? E Er]; subst.
  assert (len a <= len (concat (a :: r))) by (cbn [concat]; rewrite len_app; pose proof (len_nonneg (concat r)); lia).
  unfold max_words in B. rewrite u32_small by (pose proof (len_nonneg a); lia). rewrite u32_small by (pose proof (len_nonneg (a :: r)); lia). reflexivity.
Qed.

Lemma ad_shows_has bm v n arrays : all_len n arrays -> 0 <= n < 2 ^ 31 -> len arrays < 2 ^ 31 -> has v (concat arrays) ->
  ad_make v n (len arrays) = Ok (ArrayData v n (len arrays)) /\ ad_shows bm (ArrayData v n (len arrays)) n arrays.
Proof.
  intros H Hn Ha Hv. split; [apply ad_make_has; assumption|]. split; [reflexivity|].
  intros k c Hk. apply (ad_darray_has bm v n arrays H Hv Ha k c); [exact Hk|reflexivity].
Qed.

(** * MTR and PTYPE *)

(** continuous::ReactionNumberBlock (also MTRP, MTRH), src/ctor.hpp:14-16, 25-26, and
    continuous::SecondaryParticleTypeBlock, src/ctor.hpp:14-16, 25-26: the same code under other
    names (NTYPE() for NTR(), IP for MT, hasIP for hasMT). *)
Definition mt_of (mts : list Z) : outcome arrayData := ad_of_arrays [map dbl mts].
Definition mt_make (v : view) (ntr : Z) : outcome arrayData := ad_make v ntr 1.

(** NTR(), ReactionNumberBlock.hpp:39; MT( index ), hpp:51-54; MTs(), hpp:69
    (SecondaryParticleTypeBlock.hpp:40, 56, 71) *)
Definition mt_NTR (o : arrayData) : Z := ad_n o.
Definition mt_MT bm (o : arrayData) (index : Z) : outcome Z := n <- ad_ivalue bm o 1 index ;; Ok (u32 n).
Definition mt_MTs bm (o : arrayData) : outcome (list Z) := ad_iarray bm o 1.

(** std::find_if( first, first + n, [reaction] ( auto&& value )
      { return static_cast< unsigned int >( std::round( value ) ) == reaction; } ):
    the iterator found, [first + n] if there is none. *)
Fixpoint find_from (b : list double) (first : Z) (n : nat) (reaction : Z) : outcome Z :=
  match n with
  | O => Ok first
  | S n => x <- deref b first ;; z <- round_to_u32 x ;;
           if z =? reaction then Ok first else find_from b (first + 1) n reaction
  end.
(** [first, last) is not a range if last < first: undefined *)
Definition find_range (b : list double) (first last reaction : Z) : outcome Z :=
  if last <? first then UB else find_from b first (Z.to_nat (last - first)) reaction.

(** hasMT( reaction ), ReactionNumberBlock.hpp:81-92 (hasIP, SecondaryParticleTypeBlock.hpp:83-94):
    the iterator is compared with end(), not with begin() + NTR(). *)
Definition mt_hasMT (o : arrayData) (reaction : Z) : outcome bool :=
  let v := ad_v o in
  i <- find_range (buf v) (vbeg v) (vbeg v + ad_n o) reaction ;; Ok (negb (i =? vend v)).
(** index( reaction ), ReactionNumberBlock.hpp:109-127 (SecondaryParticleTypeBlock.hpp:110-128) *)
Definition mt_index (o : arrayData) (reaction : Z) : outcome Z :=
  let v := ad_v o in
  i <- find_range (buf v) (vbeg v) (vbeg v + ad_n o) reaction ;;
  if negb (i =? vend v) then Ok (i - vbeg v + 1) else Throw StdException.

(** Position of the first occurrence: specification. *)
Definition first_at (r : Z) (l : list Z) (k : nat) : Prop :=
  nth_error l k = Some r /\ forall j, (j < k)%nat -> nth_error l j <> Some r.

Lemma find_from_ok b pre mts post r :
  b = pre ++ map dbl mts ++ post -> Forall (fun m => 0 <= m < 2 ^ 32) mts ->
  (~ In r mts /\ find_from b (len pre) (length mts) r = Ok (len pre + len mts))
  \/ (exists k, first_at r mts k /\ find_from b (len pre) (length mts) r = Ok (len pre + Z.of_nat k)).
Proof.
  revert pre. induction mts as [|m mts IH]; intros pre Hb HF.
  - left. split; [tauto|]. cbn. f_equal. change (len (@nil Z)) with 0. lia.
  - inversion HF as [|? ? Hm HF']; subst. cbn [length find_from map].
    assert (D : deref (pre ++ (dbl m :: map dbl mts) ++ post) (len pre) = Ok (dbl m)).
    { replace (len pre) with (len pre + Z.of_nat 0) by lia. apply deref_app. reflexivity. }
    cbn [map] in D. rewrite D. cbn [bind]. rewrite round_to_u32_dbl by lia. cbn [bind].
    destruct (Z.eqb_spec m r) as [->|Hne].
    + right. exists 0%nat. split; [|f_equal; lia]. split; [reflexivity|]. intros j Hj; lia.
    + specialize (IH (pre ++ [dbl m])). rewrite len_app in IH. change (len [dbl m]) with 1 in IH.
      destruct IH as [[Hn E]|(k & [K1 K2] & E)]; [las|exact HF'| |].
      * left. split; [intros [->|Hi]; tauto|]. cbn [app map] in *. rewrite E. f_equal. rewrite len_cons. lia.
      * right. exists (S k). split; [|cbn [app map] in *; rewrite E; f_equal; lia].
        split; [exact K1|]. intros [|j] Hj; cbn [nth_error]; [congruence|]. apply K2. lia.
Qed.

Lemma find_has v mts r : has v (map dbl mts) -> Forall (fun m => 0 <= m < 2 ^ 32) mts ->
  (~ In r mts /\ find_range (buf v) (vbeg v) (vbeg v + len mts) r = Ok (vbeg v + len mts))
  \/ (exists k, first_at r mts k /\ find_range (buf v) (vbeg v) (vbeg v + len mts) r = Ok (vbeg v + Z.of_nat k)).
Proof.
  intros (pre & post & Hb & Hbeg & _ & _) HF. unfold find_range. destruct (Z.ltb_spec (vbeg v + len mts) (vbeg v)); [nonneg; lia|].
  replace (Z.to_nat (vbeg v + len mts - vbeg v)) with (length mts) by (unfold len; lia).
  rewrite Hbeg. apply (find_from_ok _ _ _ post); assumption.
Qed.

(** What a block of reaction numbers shows. *)
Definition mt_shows bm (o : arrayData) (mts : list Z) : Prop :=
  mt_NTR o = len mts /\ mt_MTs bm o = Ok mts
  /\ (forall k r, nth_error mts k = Some r -> mt_MT bm o (Z.of_nat k + 1) = Ok r)
  /\ (debug bm = true -> forall i, ~ 1 <= u64 i <= len mts -> mt_MT bm o i = Throw OutOfRange).
(** Lookups agree with the list. *)
Definition mt_lookup (o : arrayData) (mts : list Z) : Prop :=
  (forall r, In r mts -> mt_hasMT o r = Ok true /\ exists k, first_at r mts k /\ mt_index o r = Ok (Z.of_nat k + 1))
  /\ (forall r, ~ In r mts -> mt_hasMT o r = Ok false /\ mt_index o r = Throw StdException).

Definition mt_valid (mts : list Z) : Prop := Forall (fun m => 0 <= m < 2 ^ 31) mts.

Lemma mt_valid_int mts : mt_valid mts -> Forall (fun n => - 2 ^ 31 <= n < 2 ^ 31) mts /\ Forall (fun m => 0 <= m < 2 ^ 32) mts.
Proof. intros H. split; (eapply Forall_impl; [|exact H]; cbn; intros; lia). Qed.

Lemma mt_shows_has bm v mts : mt_valid mts -> has v (map dbl mts) ->
  mt_make v (len mts) = Ok (ArrayData v (len mts) 1) /\ mt_shows bm (ArrayData v (len mts) 1) mts.
Proof.
  intros HF Hv. destruct (mt_valid_int _ HF) as [HF1 _]. pose proof (has_bounds _ _ Hv) as B. rewrite len_map in B.
  assert (AL : all_len (len mts) [map dbl mts]) by (constructor; [apply len_map|constructor]).
  assert (Hv' : has v (concat [map dbl mts])) by (cbn [concat]; rewrite app_nil_r; exact Hv).
  assert (A1 : len [map dbl mts] < 2 ^ 31) by (change (len [map dbl mts]) with 1; lia).
  split; [apply (ad_make_has v (len mts) [map dbl mts] AL Hv'); pose proof (len_nonneg mts); lia|].
  split; [reflexivity|]. split; [|split].
  - unfold mt_MTs. apply (ad_iarray_has bm v (len mts) [map dbl mts] AL Hv' A1 0 mts); [reflexivity|reflexivity|exact HF1].
  - intros k r Hk. unfold mt_MT.
    assert (Hr : - 2 ^ 31 <= r < 2 ^ 31 /\ 0 <= r).
    { apply nth_error_In in Hk. unfold mt_valid in HF. rewrite Forall_forall in HF. specialize (HF _ Hk). lia. }
    pose proof (len_nonneg mts).
    pose proof (ad_ivalue_has bm v (len mts) [map dbl mts] AL Hv' ltac:(lia) A1 0 (map dbl mts) k r 1 (Z.of_nat k + 1) eq_refl) as Q.
    change (len [map dbl mts]) with 1 in Q. rewrite Q by (try lia; apply map_nth_error; exact Hk).
    cbn [bind]. rewrite u32_small by lia. reflexivity.
  - intros Hd i Hi. unfold mt_MT, ad_ivalue, check, ad_verifyIndex2, ad_verifyIndex, verifyIndex, throw_if. rewrite Hd. cbn [ad_n ad_m].
    rewrite (u64_small 1) by lia. cbn [Z.ltb orb bind Z.compare Pos.compare Pos.compare_cont].
    destruct ((u64 i <? 1) || (len mts <? u64 i)) eqn:E; [reflexivity|lia].
Qed.

Lemma mt_lookup_content v mts : mt_valid mts -> content v (map dbl mts) -> mt_lookup (ArrayData v (len mts) 1) mts.
Proof.
  intros HF [Hv E]. destruct (mt_valid_int _ HF) as [_ HF2]. rewrite len_map in E.
  split; intros r Hr; destruct (find_has v mts r Hv HF2) as [[N F]|(k & K & F)]; unfold mt_hasMT, mt_index; cbn [ad_v ad_n].
  - tauto.
  - rewrite F. cbn [bind]. pose proof (nth_error_len _ _ _ (proj1 K)).
    destruct (Z.eqb_spec (vbeg v + Z.of_nat k) (vend v)); [lia|]. cbn [negb]. split; [reflexivity|].
    exists k. split; [exact K|]. f_equal. lia.
  - rewrite F. cbn [bind]. destruct (Z.eqb_spec (vbeg v + len mts) (vend v)); [cbn [negb]; tauto|lia].
  - exfalso. apply Hr. eapply nth_error_In. exact (proj1 K).
Qed.

(** With a view that runs on after the numbers, only the "found" half holds; an absent number
    is reported present at NTR + 1. *)
Lemma mt_lookup_has v mts : mt_valid mts -> has v (map dbl mts) -> vend v <> vbeg v + len mts ->
  forall r, ~ In r mts -> mt_hasMT (ArrayData v (len mts) 1) r = Ok true /\ mt_index (ArrayData v (len mts) 1) r = Ok (len mts + 1).
Proof.
  intros HF Hv E r Hr. destruct (mt_valid_int _ HF) as [_ HF2].
  destruct (find_has v mts r Hv HF2) as [[N F]|(k & K & F)]; [|exfalso; apply Hr; eapply nth_error_In; exact (proj1 K)].
  unfold mt_hasMT, mt_index; cbn [ad_v ad_n]. rewrite F. cbn [bind].
  destruct (Z.eqb_spec (vbeg v + len mts) (vend v)); [lia|]. cbn [negb]. split; [reflexivity|]. f_equal; lia.
Qed.

Lemma mt_of_ok mts : len mts < max_words ->
  exists v, mt_of mts = Ok (ArrayData v (len mts) 1) /\ content v (map dbl mts).
Proof.
  intros B. exists (own (map dbl mts)). split; [|apply own_content; rewrite len_map; exact B].
  unfold mt_of. rewrite (ad_of_ok [map dbl mts] (len mts)).
  - cbn [concat]. rewrite app_nil_r. reflexivity.
  - constructor; [apply len_map|constructor].
  - discriminate.
  - reflexivity.
  - cbn [concat]. rewrite app_nil_r, len_map. exact B.
Qed.

(** * YP *)

(** continuous::MultiplicityReactionNumberBlock, src/generateXSS.hpp:1-8, ctor.hpp:14-15 *)
Definition yp_generateXSS (mts : list Z) : list double := dbl (len mts) :: map dbl mts.
Definition yp_of (mts : list Z) : view := own (yp_generateXSS mts).
(** NYP(), MultiplicityReactionNumberBlock.hpp:41-44 *)
Definition yp_NYP bm (v : view) : outcome Z := if vempty v then Ok 0 else (n <- ixss bm v 1 ;; Ok (u32 n)).
(** ctor.hpp:23-27, verifySize.hpp:1-14 (nyp + 1 is an unsigned int) *)
Definition yp_make bm (v : view) : outcome view :=
  nyp <- yp_NYP bm v ;;
  _ <- (if nyp =? 0 then Ok tt else verify_at_least v (u32 (nyp + 1))) ;;
  Ok v.
(** MT( index ), hpp:56-62, verifyReactionIndex.hpp; MTs(), hpp:77 *)
Definition yp_MT bm (v : view) (index : Z) : outcome Z :=
  _ <- (if debug bm then nyp <- yp_NYP bm v ;; verifyIndex (u64 index) 1 nyp else Ok tt) ;;
  n <- ixss bm v (index + 1) ;; Ok (u32 n).
Definition yp_MTs bm (v : view) : outcome (list double) := nyp <- yp_NYP bm v ;; xssr bm v 2 nyp.
(** hasMT, hpp:89-98: searches [begin() + 1, end()); index, hpp:115-133 *)
Definition yp_hasMT (v : view) (reaction : Z) : outcome bool :=
  i <- find_range (buf v) (vbeg v + 1) (vend v) reaction ;; Ok (negb (i =? vend v)).
Definition yp_index (v : view) (reaction : Z) : outcome Z :=
  i <- find_range (buf v) (vbeg v + 1) (vend v) reaction ;;
  if negb (i =? vend v) then Ok (i - (vbeg v + 1) + 1) else Throw StdException.

Definition yp_shows bm (v : view) (mts : list Z) : Prop :=
  yp_NYP bm v = Ok (len mts) /\ yp_MTs bm v = Ok (map dbl mts)
  /\ (forall k r, nth_error mts k = Some r -> yp_MT bm v (Z.of_nat k + 1) = Ok r)
  /\ (debug bm = true -> forall i, ~ 1 <= u64 i <= len mts -> yp_MT bm v i = Throw OutOfRange).
Definition yp_lookup (v : view) (mts : list Z) : Prop :=
  (forall r, In r mts -> yp_hasMT v r = Ok true /\ exists k, first_at r mts k /\ yp_index v r = Ok (Z.of_nat k + 1))
  /\ (forall r, ~ In r mts -> yp_hasMT v r = Ok false /\ yp_index v r = Throw StdException).

Lemma yp_NYP_has bm v mts : has v (yp_generateXSS mts) -> yp_NYP bm v = Ok (len mts).
Proof.
  intros Hv. pose proof (has_bounds _ _ Hv) as B. unfold yp_generateXSS in *. rewrite len_cons, len_map in B. pose proof (len_nonneg mts).
  unfold yp_NYP. rewrite (has_cons_nonempty _ _ _ Hv).
  rewrite (ixss_at _ _ [] (len mts) (map dbl mts)) by (try exact Hv; try reflexivity; lia). cbn [bind]. rewrite u32_small by lia. reflexivity.
Qed.

Lemma yp_has bm v mts : mt_valid mts -> has v (yp_generateXSS mts) -> yp_make bm v = Ok v /\ yp_shows bm v mts.
Proof.
  intros HF Hv. pose proof (has_bounds _ _ Hv) as B. unfold yp_generateXSS in *. rewrite len_cons, len_map in B. pose proof (len_nonneg mts) as N.
  pose proof (yp_NYP_has bm v mts Hv) as Ny. unfold yp_make, yp_shows. rewrite Ny. cbn [bind]. split; [|split; [reflexivity|split; [|split]]].
  - destruct (Z.eqb_spec (len mts) 0); [reflexivity|]. rewrite u32_small by lia.
    rewrite (verify_at_least_has _ _ _ Hv) by (rewrite len_cons, len_map; lia). reflexivity.
  - unfold yp_MTs. rewrite Ny. cbn [bind]. apply (xssr_has _ _ [dbl (len mts)] (map dbl mts) []); [rewrite app_nil_r; exact Hv|reflexivity|rewrite len_map; reflexivity].
  - intros k r Hk. pose proof (nth_error_len _ _ _ Hk) as Bk. unfold yp_MT. rewrite Ny.
    assert (C : (if debug bm then nyp <- Ok (len mts) ;; verifyIndex (u64 (Z.of_nat k + 1)) 1 nyp else Ok tt) = Ok tt).
    { rewrite u64_small by lia. apply (check_verifyIndex bm (Z.of_nat k + 1) 1 (len mts)). lia. }
    rewrite C. cbn [bind].
    assert (Hr : 0 <= r < 2 ^ 31). { apply nth_error_In in Hk. unfold mt_valid in HF. rewrite Forall_forall in HF. exact (HF _ Hk). }
    unfold ixss. rewrite (xss_has bm v _ _ (S k) (dbl r) Hv) by (try (cbn [nth_error]; apply map_nth_error; exact Hk); lia).
    cbn [bind]. rewrite to_int_dbl by lia. cbn [bind]. rewrite u32_small by lia. reflexivity.
  - intros Hd i Hi. unfold yp_MT. rewrite Hd, Ny. cbn [bind]. unfold verifyIndex, throw_if.
    destruct ((u64 i <? 1) || (len mts <? u64 i)) eqn:E; [reflexivity|lia].
Qed.

Lemma yp_lookup_content v mts : mt_valid mts -> content v (yp_generateXSS mts) -> yp_lookup v mts.
Proof.
  intros HF [Hv E]. destruct (mt_valid_int _ HF) as [_ HF2]. unfold yp_generateXSS in *. rewrite len_cons, len_map in E.
  assert (Hs : has (sub v (vbeg v + 1) (vend v)) (map dbl mts)).
  { apply (sub_has v [dbl (len mts)] (map dbl mts)); [exact Hv|reflexivity|]. change (len [dbl (len mts)]) with 1. rewrite len_map. pose proof (has_bounds _ _ Hv). lia. }
  assert (Ee : vend v = vbeg v + 1 + len mts) by lia.
  split; intros r Hr; destruct (find_has _ mts r Hs HF2) as [[N F]|(k & K & F)]; unfold yp_hasMT, yp_index; cbn [sub buf vbeg vend] in F; rewrite Ee.
  - tauto.
  - rewrite F. cbn [bind]. pose proof (nth_error_len _ _ _ (proj1 K)).
    destruct (Z.eqb_spec (vbeg v + 1 + Z.of_nat k) (vbeg v + 1 + len mts)); [lia|]. cbn [negb]. split; [reflexivity|].
    exists k. split; [exact K|]. f_equal. lia.
  - rewrite F. cbn [bind]. rewrite Z.eqb_refl. cbn [negb]. tauto.
  - exfalso. apply Hr. eapply nth_error_In. exact (proj1 K).
Qed.

(** * LQR, GPD, ESZ *)

(** continuous::ReactionQValueBlock, ctor.hpp:14-16, 25-26; QValue(i), hpp:52; QValues(), hpp:57.
    continuous::PhotonProductionBlock (GPD), ctor.hpp:14-16, 25-26; totalProduction(), hpp:49 is darray( 1 ) too. *)
Definition lq_of (qs : list double) : outcome arrayData := ad_of_arrays [qs].
Definition lq_make (v : view) (ntr : Z) : outcome arrayData := ad_make v ntr 1.
Definition lq_QValue bm o index : outcome double := ad_dvalue bm o 1 index.
Definition lq_QValues bm o : outcome (list double) := ad_darray bm o 1.
Definition lq_shows bm (o : arrayData) (qs : list double) : Prop :=
  ad_n o = len qs /\ lq_QValues bm o = Ok qs /\ forall k q, nth_error qs k = Some q -> lq_QValue bm o (Z.of_nat k + 1) = Ok q.

Lemma lq_has bm v qs : has v qs -> exists o, lq_make v (len qs) = Ok o /\ ad_v o = v /\ lq_shows bm o qs.
Proof.
  intros Hv. pose proof (has_bounds _ _ Hv) as B. pose proof (len_nonneg qs).
  assert (AL : all_len (len qs) [qs]) by (constructor; [reflexivity|constructor]).
  assert (Hv' : has v (concat [qs])) by (cbn [concat]; rewrite app_nil_r; exact Hv).
  assert (A1 : len [qs] < 2 ^ 31) by (change (len [qs]) with 1; lia).
  exists (ArrayData v (len qs) 1). split; [apply (ad_make_has v (len qs) [qs] AL Hv'); lia|]. split; [reflexivity|].
  split; [reflexivity|]. split.
  - unfold lq_QValues. apply (ad_darray_has bm v (len qs) [qs] AL Hv' A1 0 qs); reflexivity.
  - intros k q Hk. unfold lq_QValue. apply (ad_dvalue_has bm v (len qs) [qs] AL Hv' ltac:(lia) A1 0 qs k q); try reflexivity. exact Hk.
Qed.

Lemma lq_of_ok bm qs : len qs < max_words -> exists o, lq_of qs = Ok o /\ content (ad_v o) qs /\ lq_shows bm o qs.
Proof.
  intros B. pose proof (own_content qs B) as C. destruct (lq_has bm (own qs) qs (content_has _ _ C)) as (o & Mo & Vo & So).
  unfold lq_of. rewrite (ad_of_ok [qs] (len qs)).
  - cbn [concat]. rewrite app_nil_r. unfold lq_make, ad_make in Mo. destruct (ad_verifySize (own qs) (len qs) 1); [|discriminate|discriminate].
    cbn [bind] in Mo. apply Ok_inj in Mo. subst o. eexists; split; [reflexivity|]. auto.
  - constructor; [reflexivity|constructor].
  - discriminate.
  - reflexivity.
  - cbn [concat]. rewrite app_nil_r. exact B.
Qed.

(** continuous::PrincipalCrossSectionBlock (ESZ), ctor.hpp:18-26, 35-36; accessors hpp:42-72 *)
Definition esz_of (en tot dis el heat : list double) : outcome arrayData := ad_of_arrays [en; tot; dis; el; heat].
Definition esz_make (v : view) (nes : Z) : outcome arrayData := ad_make v nes 5.
Definition esz_NES (o : arrayData) : Z := ad_n o.
Definition esz_energies bm o := ad_darray bm o 1.
Definition esz_total bm o := ad_darray bm o 2.
Definition esz_disappearance bm o := ad_darray bm o 3.
Definition esz_elastic bm o := ad_darray bm o 4.
Definition esz_heating bm o := ad_darray bm o 5.
Definition esz_shows bm (o : arrayData) (en tot dis el heat : list double) : Prop :=
  esz_NES o = len en /\ esz_energies bm o = Ok en /\ esz_total bm o = Ok tot /\ esz_disappearance bm o = Ok dis
  /\ esz_elastic bm o = Ok el /\ esz_heating bm o = Ok heat.

Lemma esz_has bm v en tot dis el heat : all_len (len en) [en; tot; dis; el; heat] -> has v (concat [en; tot; dis; el; heat]) ->
  exists o, esz_make v (len en) = Ok o /\ ad_v o = v /\ esz_shows bm o en tot dis el heat.
Proof.
  intros AL Hv. pose proof (has_bounds _ _ Hv) as B. pose proof (len_nonneg en).
  assert (len en <= len (concat [en; tot; dis; el; heat])) by (cbn [concat]; rewrite len_app; match goal with |- context [_ + len ?x] => pose proof (len_nonneg x) end; lia).
  destruct (ad_shows_has bm v (len en) _ AL ltac:(lia) ltac:(change (len [en; tot; dis; el; heat]) with 5; lia) Hv) as [M [N S]].
  eexists. split; [exact M|]. split; [reflexivity|]. split; [exact N|].
  split; [exact (S 0%nat _ eq_refl)|]. split; [exact (S 1%nat _ eq_refl)|]. split; [exact (S 2%nat _ eq_refl)|].
  split; [exact (S 3%nat _ eq_refl)|exact (S 4%nat _ eq_refl)].
Qed.

Lemma esz_of_ok bm en tot dis el heat : all_len (len en) [en; tot; dis; el; heat] -> len (concat [en; tot; dis; el; heat]) < max_words ->
  exists o, esz_of en tot dis el heat = Ok o /\ content (ad_v o) (concat [en; tot; dis; el; heat]) /\ esz_shows bm o en tot dis el heat.
Proof.
  intros AL B. pose proof (own_content _ B) as C. destruct (esz_has bm _ _ _ _ _ _ AL (content_has _ _ C)) as (o & Mo & Vo & So).
  exists o. unfold esz_of. rewrite (ad_of_ok _ (len en) AL) by (try discriminate; try exact B; reflexivity).
  unfold esz_make, ad_make in Mo. destruct (ad_verifySize _ (len en) 5); try discriminate. cbn [bind] in Mo.
  split; [exact Mo|]. rewrite Vo. auto.
Qed.

Lemma esz_of_ragged en tot dis el heat : ~ all_len (len en) [en; tot; dis; el; heat] -> esz_of en tot dis el heat = Throw StdException.
Proof. intros H. unfold esz_of, ad_of_arrays, ad_generateXSS. rewrite ad_append_ragged by exact H. reflexivity. Qed.

(** * HPD *)

(** continuous::SecondaryParticleProductionBlock, src/generateXSS.hpp:1-24, ctor.hpp:16-20, 28-32,
    verifySize.hpp:1-13; energyIndex(), numberValues(): hpp:39, 44 (truncation of the double);
    totalProduction(), heating(): hpp:49-60 *)
Definition hpd_generateXSS (index : Z) (production heating : list double) : outcome (list double) :=
  _ <- throw_if (negb (len heating =? len production)) StdException ;;
  Ok (dbl index :: dbl (len production) :: production ++ heating).
Definition hpd_of (index : Z) (production heating : list double) : outcome view :=
  l <- hpd_generateXSS index production heating ;; Ok (own l).
Definition hpd_energyIndex bm (v : view) : outcome Z := x <- xss bm v 1 ;; trunc_to_size x.
Definition hpd_numberValues bm (v : view) : outcome Z := x <- xss bm v 2 ;; trunc_to_size x.
Definition hpd_totalProduction bm (v : view) : outcome (list double) := n <- hpd_numberValues bm v ;; xssr bm v 3 n.
Definition hpd_heating bm (v : view) : outcome (list double) := n <- hpd_numberValues bm v ;; xssr bm v (3 + n) n.
Definition hpd_make bm (v : view) : outcome view :=
  n <- hpd_numberValues bm v ;; _ <- verify_at_least v (u32 (2 * u32 n + 2)) ;; Ok v.
Definition hpd_shows bm (v : view) (index : Z) (production heating : list double) : Prop :=
  hpd_energyIndex bm v = Ok index /\ hpd_numberValues bm v = Ok (len production)
  /\ hpd_totalProduction bm v = Ok production /\ hpd_heating bm v = Ok heating.

Lemma hpd_has bm v index p h : 0 <= index < 2 ^ 53 -> len h = len p -> has v (dbl index :: dbl (len p) :: p ++ h) ->
  hpd_make bm v = Ok v /\ hpd_shows bm v index p h.
Proof.
  intros Hi E Hv. pose proof (has_bounds _ _ Hv) as B. rewrite !len_cons, len_app in B. pose proof (len_nonneg p).
  assert (Nv : hpd_numberValues bm v = Ok (len p)).
  { unfold hpd_numberValues. rewrite (xss_at bm v [dbl index] (dbl (len p)) (p ++ h)) by (try exact Hv; reflexivity). cbn [bind]. apply trunc_to_size_dbl. lia. }
  split; [|split; [|split; [exact Nv|split]]].
  - unfold hpd_make. rewrite Nv. cbn [bind]. rewrite (u32_small (len p)) by lia. rewrite u32_small by lia.
    rewrite (verify_at_least_has _ _ _ Hv) by (rewrite !len_cons, len_app; lia). reflexivity.
  - unfold hpd_energyIndex. rewrite (xss_at bm v [] (dbl index) (dbl (len p) :: p ++ h)) by (try exact Hv; reflexivity). cbn [bind]. apply trunc_to_size_dbl. lia.
  - unfold hpd_totalProduction. rewrite Nv. cbn [bind]. apply (xssr_has bm v [dbl index; dbl (len p)] p h); [exact Hv|reflexivity|reflexivity].
  - unfold hpd_heating. rewrite Nv. cbn [bind]. apply (xssr_has bm v (dbl index :: dbl (len p) :: p) h []).
    + rewrite app_nil_r. exact Hv.
    + rewrite !len_cons. lia.
    + lia.
Qed.

(** * NTRO and IXS *)

(** continuous::SecondaryParticleInformationBlock, generateXSS.hpp:1-8, ctor.hpp:6-9, 26-27, 36-40,
    verifySize.hpp; NP(i) = IXSS( index ), hpp:59 (no check of the index); NPs() = XSS( 1, NTYPE ), hpp:74.
    [numbers] is taken by reference to the private constructor, so size() is not affected by the move. *)
Record ntro := Ntro { nt_v : view; nt_ntype : Z }.
Definition nt_generateXSS (numbers : list Z) : list double := map dbl numbers.
Definition nt_of (numbers : list Z) : ntro := Ntro (own (nt_generateXSS numbers)) (u32 (len numbers)).
Definition nt_make (v : view) (ntype : Z) : outcome ntro := _ <- verify_at_least v ntype ;; Ok (Ntro v ntype).
Definition nt_NTYPE (o : ntro) : Z := nt_ntype o.
Definition nt_NP bm (o : ntro) (index : Z) : outcome Z := n <- ixss bm (nt_v o) index ;; Ok (u32 n).
Definition nt_NPs bm (o : ntro) : outcome (list double) := xssr bm (nt_v o) 1 (nt_ntype o).
Definition nt_shows bm (o : ntro) (numbers : list Z) : Prop :=
  nt_NTYPE o = len numbers /\ nt_NPs bm o = Ok (map dbl numbers)
  /\ forall k n, nth_error numbers k = Some n -> nt_NP bm o (Z.of_nat k + 1) = Ok n.

Lemma nt_shows_has bm v numbers : mt_valid numbers -> has v (map dbl numbers) -> nt_shows bm (Ntro v (len numbers)) numbers.
Proof.
  intros HF Hv. pose proof (has_bounds _ _ Hv) as B. rewrite len_map in B.
  split; [reflexivity|]. split.
  - unfold nt_NPs. cbn [nt_v nt_ntype]. apply (xssr_has bm v [] (map dbl numbers) []); [rewrite app_nil_r; exact Hv|reflexivity|symmetry; apply len_map].
  - intros k n Hk. unfold nt_NP. cbn [nt_v].
    assert (Hr : 0 <= n < 2 ^ 31). { pose proof (nth_error_In _ _ Hk) as I. unfold mt_valid in HF. rewrite Forall_forall in HF. exact (HF _ I). }
    unfold ixss. rewrite (xss_has bm v _ _ k (dbl n) Hv) by (try (apply map_nth_error; exact Hk); reflexivity).
    cbn [bind]. rewrite to_int_dbl by lia. cbn [bind]. rewrite u32_small by lia. reflexivity.
Qed.
Lemma nt_has bm v numbers : mt_valid numbers -> has v (nt_generateXSS numbers) ->
  nt_make v (len numbers) = Ok (Ntro v (len numbers)) /\ nt_shows bm (Ntro v (len numbers)) numbers.
Proof.
  intros HF Hv. split; [|apply nt_shows_has; assumption]. unfold nt_make, nt_generateXSS in *.
  rewrite (verify_at_least_has _ _ _ Hv) by (rewrite len_map; lia). reflexivity.
Qed.
Lemma nt_of_ok bm numbers : mt_valid numbers -> len numbers < max_words -> content (nt_v (nt_of numbers)) (nt_generateXSS numbers) /\ nt_shows bm (nt_of numbers) numbers.
Proof.
  intros HF B. assert (C : content (own (nt_generateXSS numbers)) (nt_generateXSS numbers)) by (apply own_content; unfold nt_generateXSS; rewrite len_map; exact B).
  split; [exact C|]. unfold nt_of. unfold max_words in B. rewrite u32_small by (pose proof (len_nonneg numbers); lia). apply nt_shows_has; [exact HF|exact (content_has _ _ C)].
Qed.

(** continuous::SecondaryParticleLocatorBlock, generateXSS.hpp:1-12, ctor.hpp:6-10, 27-29, 38-42,
    verifySize.hpp (10 * ntype in unsigned int); LLOC( particle, index ), hpp:59-62 (int to size_t).
    [std::array< unsigned int, 10 >] is a list of length 10. *)
Definition ix_generateXSS (locators : list (list Z)) : list double := concat (map (map dbl) locators).
Definition ix_of (locators : list (list Z)) : ntro := Ntro (own (ix_generateXSS locators)) (u32 (len locators)).
Definition ix_make (v : view) (ntype : Z) : outcome ntro := _ <- verify_at_least v (u32 (10 * ntype)) ;; Ok (Ntro v ntype).
Definition ix_LLOC bm (o : ntro) (particle index : Z) : outcome Z := ixss_size bm (nt_v o) ((particle - 1) * 10 + index).
Definition ix_shows bm (o : ntro) (locators : list (list Z)) : Prop :=
  nt_NTYPE o = len locators
  /\ forall k ls j n, nth_error locators k = Some ls -> nth_error ls j = Some n -> ix_LLOC bm o (Z.of_nat k + 1) (Z.of_nat j + 1) = Ok n.
Definition ix_valid (locators : list (list Z)) : Prop := Forall (fun ls => len ls = 10 /\ mt_valid ls) locators.

Lemma ix_all_len locators : ix_valid locators -> all_len 10 (map (map dbl) locators).
Proof. intros H. unfold all_len. rewrite Forall_map. eapply Forall_impl; [|exact H]. cbn. intros ls [E _]. rewrite len_map. exact E. Qed.

Lemma ix_shows_has bm v locators : ix_valid locators -> has v (ix_generateXSS locators) -> ix_shows bm (Ntro v (len locators)) locators.
Proof.
  intros H Hv. split; [reflexivity|]. intros k ls j n Hk Hj. unfold ix_LLOC, ixss_size, ixss. cbn [nt_v].
  assert (Hr : 0 <= n < 2 ^ 31).
  { pose proof (nth_error_In _ _ Hk) as I. unfold ix_valid in H. rewrite Forall_forall in H. destruct (H _ I) as [_ HF].
    pose proof (nth_error_In _ _ Hj) as J. unfold mt_valid in HF. rewrite Forall_forall in HF. exact (HF _ J). }
  assert (Hk' : nth_error (map (map dbl) locators) k = Some (map dbl ls)) by (apply map_nth_error; exact Hk).
  pose proof (ad_xss_at bm v 10 (map (map dbl) locators) (ix_all_len _ H) Hv k (map dbl ls) j (dbl n) Hk' (map_nth_error _ _ _ Hj)) as Q.
  rewrite Q. cbn [bind]. rewrite to_int_dbl by lia. cbn [bind]. rewrite u64_small by lia. reflexivity.
Qed.
Lemma ix_has bm v locators : ix_valid locators -> has v (ix_generateXSS locators) ->
  ix_make v (len locators) = Ok (Ntro v (len locators)) /\ ix_shows bm (Ntro v (len locators)) locators.
Proof.
  intros H Hv. split; [|apply ix_shows_has; assumption]. pose proof (has_bounds _ _ Hv) as B. unfold ix_make.
  assert (L : len (ix_generateXSS locators) = len locators * 10) by (unfold ix_generateXSS; rewrite (len_concat 10) by (apply ix_all_len; exact H); rewrite len_map; reflexivity).
  pose proof (len_nonneg locators). rewrite u32_small by lia.
  rewrite (verify_at_least_has _ _ _ Hv) by lia. reflexivity.
Qed.
Lemma ix_of_ok bm locators : ix_valid locators -> len (ix_generateXSS locators) < max_words ->
  content (nt_v (ix_of locators)) (ix_generateXSS locators) /\ ix_shows bm (ix_of locators) locators.
Proof.
  intros H B. pose proof (own_content _ B) as C. split; [exact C|]. unfold ix_of.
  assert (L : len (ix_generateXSS locators) = len locators * 10) by (unfold ix_generateXSS; rewrite (len_concat 10) by (apply ix_all_len; exact H); rewrite len_map; reflexivity).
  unfold max_words in B. rewrite u32_small by (pose proof (len_nonneg locators); lia). apply ix_shows_has; [exact H|exact (content_has _ _ C)].
Qed.
