(** The blocks of the photoatomic, photonuclear and dosimetry tables. *)
From Coq Require Import ZArith Bool List Lia.
From Coq Require Import ZifyBool ZifyNat.
From Verif Require Import PropLemmasBasic.
From Verif Require Export ElectronBlocks.
Import ListNotations.
Open Scope Z_scope.

(** A block of arrays: built from the arrays or read from a view. *)
Lemma ad_block bm n arrays (S : arrayData -> Prop) :
  (forall o, ad_reads bm o n arrays -> S o) -> all_len n arrays -> arrays <> [] -> len arrays < 2 ^ 31 ->
  (len (concat arrays) < max_words -> exists o, ad_of_arrays arrays = Ok o /\ content (ad_v o) (concat arrays) /\ S o)
  /\ (forall v, has v (concat arrays) -> exists o, ad_make v n (len arrays) = Ok o /\ ad_v o = v /\ S o).
Proof.
  intros HS AL NE Lm. split.
  - intros B. destruct (ad_reads_of bm n arrays AL NE Lm B) as (o & E & C & R). exists o. auto.
  - intros v Hv. pose proof (has_bounds _ _ Hv) as B.
    destruct (ad_reads_has bm v n arrays AL) as [M R]; try assumption.
    + destruct arrays as [|a r]; [congruence|]. inversion AL as [|? ? E _]; subst. cbn [concat] in B. rewrite len_app in B.
      pose proof (len_nonneg a). pose proof (len_nonneg (concat r)). lia.
    + eexists. split; [exact M|]. split; [reflexivity|]. apply HS. exact R.
Qed.

Ltac adb := match goal with bm : build |- (len (concat ?a) < _ -> _) /\ _ => eapply (ad_block bm _ a); [|eassumption|let X := fresh in intros X; inversion X|reflexivity] end.

(** * Blocks with two arrays *)

(** electron::BremsstrahlungBlock (BREML: energies(), energyAfterBremsstrahlung()), ctor.hpp:15-23,
    32-33, hpp:42-57; electron::ElasticCrossSectionBlock (SELAS: transport(), total()), ctor.hpp:15-18,
    28-30, hpp:43-58; electron::ExcitationBlock (EXCIT: energies(), excitationEnergyLoss()),
    ctor.hpp:15-23, 32-34, hpp:42-57: the same code under other names. *)
Definition two_of (a b : list double) : outcome arrayData := ad_of_arrays [a; b].
Definition two_make (v : view) (n : Z) : outcome arrayData := ad_make v n 2.
Definition two_N (o : arrayData) : Z := ad_n o.
Definition two_first bm o := ad_darray bm o 1.
Definition two_second bm o := ad_darray bm o 2.
Definition two_shows bm o (a b : list double) : Prop :=
  two_N o = len a /\ two_first bm o = Ok a /\ two_second bm o = Ok b.

Lemma two_block bm a b : all_len (len a) [a; b] ->
  (len (concat [a; b]) < max_words -> exists o, two_of a b = Ok o /\ content (ad_v o) (concat [a; b]) /\ two_shows bm o a b)
  /\ (forall v, has v (concat [a; b]) -> exists o, two_make v (len a) = Ok o /\ ad_v o = v /\ two_shows bm o a b).
Proof.
  intros AL. unfold two_of, two_make. change 2 with (len [a; b]). adb. intros o (N & _ & D & _).
  split; [exact N|]. split; [exact (D 0%nat _ eq_refl)|exact (D 1%nat _ eq_refl)].
Qed.

(** * EPS *)

(** electron::ElectronShellBlock, ctor.hpp:16-26, 35-36, hpp:38-102 *)
Definition ep_of (electrons : list Z) (energies probabilities : list double) : outcome arrayData :=
  ad_of_arrays [map dbl electrons; energies; probabilities].
Definition ep_make (v : view) (nsh : Z) : outcome arrayData := ad_make v nsh 3.
Definition ep_NSH (o : arrayData) : Z := ad_n o.
Definition ep_LNEPS bm o := ad_darray bm o 1.
Definition ep_LBEPS bm o := ad_darray bm o 2.
Definition ep_LPIPS bm o := ad_darray bm o 3.
Definition ep_numberElectronsPerShell bm o index : outcome Z := k <- ad_ivalue bm o 1 index ;; nonneg_or_UB k.
Definition ep_bindingEnergy bm o index := ad_dvalue bm o 2 index.
Definition ep_interactionProbability bm o index := ad_dvalue bm o 3 index.
Definition ep_shows bm o (electrons : list Z) (energies probabilities : list double) : Prop :=
  ep_NSH o = len electrons /\ ep_LNEPS bm o = Ok (map dbl electrons) /\ ep_LBEPS bm o = Ok energies /\ ep_LPIPS bm o = Ok probabilities
  /\ (forall k n, nth_error electrons k = Some n -> ep_numberElectronsPerShell bm o (Z.of_nat k + 1) = Ok n)
  /\ (forall k e, nth_error energies k = Some e -> ep_bindingEnergy bm o (Z.of_nat k + 1) = Ok e)
  /\ (forall k p, nth_error probabilities k = Some p -> ep_interactionProbability bm o (Z.of_nat k + 1) = Ok p).

Lemma ivalue_nonneg bm o n arrays k z c j : ad_reads bm o n arrays -> nth_error arrays k = Some (map dbl c) -> nth_error c j = Some z ->
  0 <= z < 2 ^ 31 -> (x <- ad_ivalue bm o (Z.of_nat k + 1) (Z.of_nat j + 1) ;; nonneg_or_UB x) = Ok z.
Proof.
  intros (_ & _ & _ & _ & _ & I) Hk Hj B. rewrite (I k _ j z Hk (map_nth_error dbl j c Hj)) by lia. cbn [bind].
  unfold nonneg_or_UB. destruct (Z.leb_spec 0 z); [reflexivity|lia].
Qed.

Lemma mt_valid_nth l k z : mt_valid l -> nth_error l k = Some z -> 0 <= z < 2 ^ 31.
Proof. unfold mt_valid. intros H E. rewrite Forall_forall in H. apply H. eapply nth_error_In; exact E. Qed.

Lemma ep_block bm el en pr : mt_valid el -> all_len (len el) [map dbl el; en; pr] ->
  (len (concat [map dbl el; en; pr]) < max_words -> exists o, ep_of el en pr = Ok o /\ content (ad_v o) (concat [map dbl el; en; pr]) /\ ep_shows bm o el en pr)
  /\ (forall v, has v (concat [map dbl el; en; pr]) -> exists o, ep_make v (len el) = Ok o /\ ad_v o = v /\ ep_shows bm o el en pr).
Proof.
  intros V AL. unfold ep_of, ep_make. change 3 with (len [map dbl el; en; pr]). adb. intros o R. pose proof R as (N & _ & D & _ & X & _).
  split; [exact N|]. split; [exact (D 0%nat _ eq_refl)|]. split; [exact (D 1%nat _ eq_refl)|]. split; [exact (D 2%nat _ eq_refl)|]. split; [|split].
  - intros k n Hk. apply (ivalue_nonneg bm o _ _ 0 n el k R eq_refl Hk). eapply mt_valid_nth; eassumption.
  - intros k e Hk. exact (X 1%nat _ k e eq_refl Hk).
  - intros k e Hk. exact (X 2%nat _ k e eq_refl Hk).
Qed.

(** * SUBSH *)

(** electron::ElectronSubshellBlock, ctor.hpp:18-33, 42-43, hpp:42-147 *)
Definition ss_of (ids : list Z) (pop be cv : list double) (nt : list Z) : outcome arrayData :=
  ad_of_arrays [map dbl ids; pop; be; cv; map dbl nt].
Definition ss_make (v : view) (nssh : Z) : outcome arrayData := ad_make v nssh 5.
Definition ss_NSSH (o : arrayData) : Z := ad_n o.
Definition ss_ID bm o := ad_iarray bm o 1.
Definition ss_EP bm o := ad_darray bm o 2.
Definition ss_BE bm o := ad_darray bm o 3.
Definition ss_CV bm o := ad_darray bm o 4.
Definition ss_NT bm o := ad_iarray bm o 5.
Definition ss_designator bm o index : outcome Z := k <- ad_ivalue bm o 1 index ;; nonneg_or_UB k.
Definition ss_population bm o index := ad_dvalue bm o 2 index.
Definition ss_bindingEnergy bm o index := ad_dvalue bm o 3 index.
Definition ss_vacancyProbability bm o index := ad_dvalue bm o 4 index.
Definition ss_numberTransitions bm o index : outcome Z := k <- ad_ivalue bm o 5 index ;; nonneg_or_UB k.
Definition ss_arrays ids (pop be cv : list double) nt := [map dbl ids; pop; be; cv; map dbl nt].
Definition ss_shows bm o (ids : list Z) (pop be cv : list double) (nt : list Z) : Prop :=
  ss_NSSH o = len ids /\ ss_ID bm o = Ok ids /\ ss_EP bm o = Ok pop /\ ss_BE bm o = Ok be /\ ss_CV bm o = Ok cv /\ ss_NT bm o = Ok nt
  /\ (forall k n, nth_error ids k = Some n -> ss_designator bm o (Z.of_nat k + 1) = Ok n)
  /\ (forall k x, nth_error pop k = Some x -> ss_population bm o (Z.of_nat k + 1) = Ok x)
  /\ (forall k x, nth_error be k = Some x -> ss_bindingEnergy bm o (Z.of_nat k + 1) = Ok x)
  /\ (forall k x, nth_error cv k = Some x -> ss_vacancyProbability bm o (Z.of_nat k + 1) = Ok x)
  /\ (forall k n, nth_error nt k = Some n -> ss_numberTransitions bm o (Z.of_nat k + 1) = Ok n).

Lemma mt_valid_range l : mt_valid l -> int_range l.
Proof. unfold mt_valid, int_range. intros H. eapply Forall_impl; [|exact H]. cbn. intros; lia. Qed.

Lemma ss_block bm ids pop be cv nt : mt_valid ids -> mt_valid nt -> all_len (len ids) (ss_arrays ids pop be cv nt) ->
  let l := concat (ss_arrays ids pop be cv nt) in
  (len l < max_words -> exists o, ss_of ids pop be cv nt = Ok o /\ content (ad_v o) l /\ ss_shows bm o ids pop be cv nt)
  /\ (forall v, has v l -> exists o, ss_make v (len ids) = Ok o /\ ad_v o = v /\ ss_shows bm o ids pop be cv nt).
Proof.
  intros V V' AL l. subst l. unfold ss_of, ss_make. change 5 with (len (ss_arrays ids pop be cv nt)). change [map dbl ids; pop; be; cv; map dbl nt] with (ss_arrays ids pop be cv nt).
  adb. intros o R. pose proof R as (N & _ & D & I & X & _).
  split; [exact N|]. split; [exact (I 0%nat _ eq_refl (mt_valid_range _ V))|]. split; [exact (D 1%nat _ eq_refl)|]. split; [exact (D 2%nat _ eq_refl)|].
  split; [exact (D 3%nat _ eq_refl)|]. split; [exact (I 4%nat _ eq_refl (mt_valid_range _ V'))|].
  split; [intros k n Hk; apply (ivalue_nonneg bm o _ _ 0 n ids k R eq_refl Hk); exact (mt_valid_nth _ _ _ V Hk)|].
  split; [intros k x Hk; exact (X 1%nat _ k x eq_refl Hk)|]. split; [intros k x Hk; exact (X 2%nat _ k x eq_refl Hk)|].
  split; [intros k x Hk; exact (X 3%nat _ k x eq_refl Hk)|].
  intros k n Hk. apply (ivalue_nonneg bm o _ _ 4 n nt k R eq_refl Hk). exact (mt_valid_nth _ _ _ V' Hk).
Qed.

(** * ESZE *)

(** std::plus on doubles *)
Definition dadd (a b : double) : double := SFadd 53 1024 a b.
(** The sums of the values of two vectors *)
Fixpoint vadd (a b : list double) : list double :=
  match a, b with x :: a, y :: b => dadd x y :: vadd a b | _, _ => [] end.

(** std::transform( a.begin(), a.end(), b.begin(), b.begin(), std::plus ): the values of b that stand where a has
    one are replaced by the sums; undefined if b is shorter than a *)
Definition transform_plus (a b : list double) : outcome (list double) :=
  if len b <? len a then UB else Ok (vadd a b ++ skipn (length a) b).
(** The loop over the subshells, generateArrays.hpp:55-64 *)
Fixpoint ez_ionisation (total : list double) (ions : list (list double)) : outcome (list double) :=
  match ions with [] => Ok total | v :: r => t <- transform_plus v total ;; ez_ionisation t r end.

(** generateArrays, electron/PrincipalCrossSectionBlock/src/generateArrays.hpp:1-71 *)
Definition ez_generateArrays (energies elastic brems exc : list double) (ions : list (list double)) : outcome (list (list double)) :=
  let ne := len energies in
  match ions with
  | [] => Throw StdException
  | i0 :: rest =>
      _ <- throw_if (negb (len elastic =? ne) || negb (len brems =? ne) || negb (len exc =? ne)
                     || existsb (fun v => negb (len v =? ne)) ions) StdException ;;
      total <- transform_plus brems elastic ;;
      total <- transform_plus exc total ;;
      totalionisation <- ez_ionisation i0 rest ;;
      total <- transform_plus totalionisation total ;;
      Ok (energies :: total :: elastic :: brems :: exc :: totalionisation :: ions)
  end.
(** ctor.hpp:19-28, 38-40; accessors hpp:51-110; verifyIndex.hpp:1-9 *)
Definition ez_of energies elastic brems exc ions : outcome arrayData :=
  arrays <- ez_generateArrays energies elastic brems exc ions ;; ad_of_arrays arrays.
Definition ez_make (v : view) (nssh ne : Z) : outcome arrayData := ad_make v ne (u32 (6 + nssh)).
Definition ez_NE (o : arrayData) : Z := ad_n o.
Definition ez_NSSH (o : arrayData) : Z := u32 (ad_m o - 6).
Definition ez_energies bm o := ad_darray bm o 1.
Definition ez_total bm o := ad_darray bm o 2.
Definition ez_elastic bm o := ad_darray bm o 3.
Definition ez_bremsstrahlung bm o := ad_darray bm o 4.
Definition ez_excitation bm o := ad_darray bm o 5.
Definition ez_totalElectroionisation bm o := ad_darray bm o 6.
Definition ez_electroionisation bm o index : outcome (list double) :=
  _ <- check bm (verifyIndex (u64 index) 1 (ez_NSSH o)) ;; ad_darray bm o (6 + index).

Definition ez_arrays (energies total elastic brems exc totion : list double) (ions : list (list double)) :=
  energies :: total :: elastic :: brems :: exc :: totion :: ions.
Definition ez_shows bm o (energies total elastic brems exc totion : list double) (ions : list (list double)) : Prop :=
  ez_NE o = len energies /\ ez_NSSH o = len ions /\ ez_energies bm o = Ok energies /\ ez_total bm o = Ok total
  /\ ez_elastic bm o = Ok elastic /\ ez_bremsstrahlung bm o = Ok brems /\ ez_excitation bm o = Ok exc /\ ez_totalElectroionisation bm o = Ok totion
  /\ (forall k c, nth_error ions k = Some c -> ez_electroionisation bm o (Z.of_nat k + 1) = Ok c)
  /\ (forall i, u64 i < 1 \/ len ions < u64 i -> ez_electroionisation Debug o i = Throw OutOfRange).

(** The total: totion + (exc + (brems + elastic)) at every energy, with double additions in this
    order; the total electroionisation: the subshells added one after the other. *)
Definition ez_sums (total elastic brems exc totion : list double) (ions : list (list double)) : Prop :=
  (forall j t, nth_error total j = Some t -> exists el b x i, nth_error elastic j = Some el /\ nth_error brems j = Some b
      /\ nth_error exc j = Some x /\ nth_error totion j = Some i /\ t = dadd i (dadd x (dadd b el)))
  /\ (forall j i, nth_error totion j = Some i -> exists i0 r, Forall2 (fun c x => nth_error c j = Some x) ions (i0 :: r)
      /\ i = fold_left (fun acc x => dadd x acc) r i0).

Lemma ez_reads bm o ne energies total elastic brems exc totion ions : len energies = ne -> len ions < 2 ^ 31 - 6 ->
  ad_reads bm o ne (ez_arrays energies total elastic brems exc totion ions) -> ez_shows bm o energies total elastic brems exc totion ions.
Proof.
  intros E L (N & M & D & _). pose proof (len_nonneg ions).
  assert (NS : ez_NSSH o = len ions).
  { unfold ez_NSSH. rewrite M. unfold ez_arrays. rewrite !len_cons. replace (_ - 6) with (len ions) by lia. apply u32_small. lia. }
  split; [unfold ez_NE; congruence|]. split; [exact NS|].
  split; [exact (D 0%nat _ eq_refl)|]. split; [exact (D 1%nat _ eq_refl)|]. split; [exact (D 2%nat _ eq_refl)|].
  split; [exact (D 3%nat _ eq_refl)|]. split; [exact (D 4%nat _ eq_refl)|]. split; [exact (D 5%nat _ eq_refl)|]. split.
  - intros k c Hk. pose proof (nth_error_len _ _ _ Hk). unfold ez_electroionisation. rewrite NS. rewrite u64_small by lia.
    rewrite check_verifyIndex by lia. cbn [bind].
    replace (6 + (Z.of_nat k + 1)) with (Z.of_nat (6 + k) + 1) by lia. apply D. exact Hk.
  - intros i Hi. unfold ez_electroionisation, check, verifyIndex, throw_if. cbn [debug]. rewrite NS.
    destruct ((u64 i <? 1) || (len ions <? u64 i)) eqn:E'; [reflexivity|lia].
Qed.

Lemma vadd_nth a b j x : nth_error (vadd a b) j = Some x -> exists y z, nth_error a j = Some y /\ nth_error b j = Some z /\ x = dadd y z.
Proof.
  revert b j. induction a as [|y a IH]; intros [|z b] [|j]; cbn [vadd nth_error]; try discriminate.
  - intros E. injection E as <-. eauto.
  - intros E. apply IH in E. exact E.
Qed.
Lemma vadd_length a b : length a = length b -> length (vadd a b) = length a.
Proof. revert b. induction a as [|y a IH]; intros [|z b]; cbn; try discriminate; [reflexivity|]. intros E. rewrite IH; congruence. Qed.

Lemma fold_vadd_length ne rest i0 : Forall (fun c => length c = ne) rest -> length i0 = ne ->
  length (fold_left (fun acc v => vadd v acc) rest i0) = ne.
Proof.
  intros H. revert i0. induction H as [|c rest Hc _ IH]; intros i0 E; cbn [fold_left]; [exact E|].
  apply IH. rewrite vadd_length; congruence.
Qed.

Lemma fold_vadd_nth j rest : forall i0 x, nth_error (fold_left (fun acc v => vadd v acc) rest i0) j = Some x ->
  exists y r, nth_error i0 j = Some y /\ Forall2 (fun c x => nth_error c j = Some x) rest r /\ x = fold_left (fun acc x => dadd x acc) r y.
Proof.
  induction rest as [|c rest IH]; intros i0 x H; cbn [fold_left] in H.
  - exists x, []. repeat split; auto.
  - destruct (IH _ _ H) as (y & r & Hy & F & ->). apply vadd_nth in Hy as (a & b & Ha & Hb & ->).
    exists b, (a :: r). split; [exact Hb|]. split; [constructor; assumption|reflexivity].
Qed.

Lemma transform_plus_same a b : length a = length b -> transform_plus a b = Ok (vadd a b).
Proof.
  intros E. unfold transform_plus, len. rewrite E, Z.ltb_irrefl, skipn_all, app_nil_r. reflexivity.
Qed.
Lemma ez_ionisation_same ne rest : Forall (fun c => length c = ne) rest -> forall i0, length i0 = ne ->
  ez_ionisation i0 rest = Ok (fold_left (fun acc v => vadd v acc) rest i0).
Proof.
  induction 1 as [|c rest Hc _ IH]; intros i0 E; cbn [ez_ionisation fold_left]; [reflexivity|].
  rewrite transform_plus_same by congruence. cbn [bind]. apply IH. rewrite vadd_length; congruence.
Qed.

Lemma ez_generateArrays_ok energies elastic brems exc i0 rest :
  all_len (len energies) (elastic :: brems :: exc :: i0 :: rest) ->
  exists total totion, ez_generateArrays energies elastic brems exc (i0 :: rest) = Ok (ez_arrays energies total elastic brems exc totion (i0 :: rest))
    /\ all_len (len energies) (ez_arrays energies total elastic brems exc totion (i0 :: rest))
    /\ ez_sums total elastic brems exc totion (i0 :: rest).
Proof.
  intros AL. inversion AL as [|? ? L1 AL1]; subst. inversion AL1 as [|? ? L2 AL2]; subst. inversion AL2 as [|? ? L3 AL3]; subst. clear AL AL1 AL2.
  assert (R : Forall (fun c => length c = length energies) (i0 :: rest)).
  { eapply Forall_impl; [|exact AL3]. cbn. intros c Hc. unfold len in Hc. lia. }
  inversion R as [|? ? R0 R1]; subst. pose proof L1 as M1. pose proof L2 as M2. pose proof L3 as M3. unfold len in M1, M2, M3. apply Nat2Z.inj in M1, M2, M3.
  assert (Lt' : length (fold_left (fun acc v => vadd v acc) rest i0) = length energies) by (apply fold_vadd_length; assumption).
  exists (vadd (fold_left (fun acc v => vadd v acc) rest i0) (vadd exc (vadd brems elastic))), (fold_left (fun acc v => vadd v acc) rest i0). split.
  - unfold ez_generateArrays. rewrite L1, L2, L3, Z.eqb_refl. cbn [negb orb].
    replace (existsb (fun v => negb (len v =? len energies)) (i0 :: rest)) with false.
    { cbn [throw_if bind]. rewrite (transform_plus_same brems elastic) by congruence. cbn [bind].
      assert (B1 : length (vadd brems elastic) = length energies) by (rewrite vadd_length; congruence).
      rewrite (transform_plus_same exc (vadd brems elastic)) by congruence. cbn [bind].
      rewrite (ez_ionisation_same (length energies) rest R1 i0 R0). cbn [bind].
      rewrite transform_plus_same; [reflexivity|]. rewrite Lt'. rewrite vadd_length; congruence. }
    symmetry. apply not_true_is_false. intros H. apply existsb_exists in H as (c & Hc & E). unfold all_len in AL3. rewrite Forall_forall in AL3.
    rewrite (AL3 c Hc), Z.eqb_refl in E. discriminate.
  - assert (Lt : length (fold_left (fun acc v => vadd v acc) rest i0) = length energies).
    { apply fold_vadd_length.
      - inversion AL3 as [|? ? _ AL4]; subst. eapply Forall_impl; [|exact AL4]. cbn. intros c Hc. unfold len in Hc. lia.
      - inversion AL3 as [|? ? H _]; subst. unfold len in H. lia. }
    unfold len in L1, L2, L3. split.
    + constructor; [reflexivity|]. constructor; [unfold len; rewrite vadd_length; [rewrite Lt; reflexivity|]; rewrite !vadd_length; try lia; rewrite ?vadd_length; lia|].
      constructor; [unfold len; lia|]. constructor; [unfold len; lia|]. constructor; [unfold len; lia|]. constructor; [unfold len; lia|exact AL3].
    + split.
      * intros j t H. apply vadd_nth in H as (i & y & Hi & Hy & ->). apply vadd_nth in Hy as (x & z & Hx & Hz & ->).
        apply vadd_nth in Hz as (b & el & Hb & Hel & ->). exists el, b, x, i. auto.
      * intros j i H. apply fold_vadd_nth in H as (y & r & Hy & F & ->). exists y, r. split; [constructor; assumption|reflexivity].
Qed.

Lemma ez_of_ok bm energies elastic brems exc i0 rest :
  all_len (len energies) (elastic :: brems :: exc :: i0 :: rest) -> (6 + len (i0 :: rest)) * len energies < max_words -> 6 + len (i0 :: rest) < 2 ^ 31 ->
  exists o total totion, ez_of energies elastic brems exc (i0 :: rest) = Ok o
    /\ content (ad_v o) (concat (ez_arrays energies total elastic brems exc totion (i0 :: rest)))
    /\ ez_sums total elastic brems exc totion (i0 :: rest) /\ ez_shows bm o energies total elastic brems exc totion (i0 :: rest).
Proof.
  intros AL B L. destruct (ez_generateArrays_ok _ _ _ _ _ _ AL) as (total & totion & G & AL' & S).
  unfold ez_of. rewrite G. cbn [bind]. destruct (ad_reads_of bm (len energies) _ AL') as (o & E & C & R).
  - discriminate.
  - unfold ez_arrays. rewrite !len_cons in *. lia.
  - rewrite (len_concat _ _ AL'). unfold ez_arrays. rewrite !len_cons in *. nia.
  - exists o, total, totion. split; [exact E|]. split; [exact C|]. split; [exact S|]. eapply ez_reads; [reflexivity| |exact R]. lia.
Qed.

Lemma ez_make_has bm v energies total elastic brems exc totion ions : let arrays := ez_arrays energies total elastic brems exc totion ions in
  all_len (len energies) arrays -> 6 + len ions < 2 ^ 31 -> has v (concat arrays) ->
  exists o, ez_make v (len ions) (len energies) = Ok o /\ ad_v o = v /\ ez_shows bm o energies total elastic brems exc totion ions.
Proof.
  intros arrays AL L Hv. unfold ez_make. pose proof (len_nonneg ions). rewrite u32_small by lia.
  replace (6 + len ions) with (len arrays) by (unfold arrays, ez_arrays; rewrite !len_cons; lia).
  apply (ad_block bm (len energies) arrays); auto.
  - intros o R. eapply ez_reads; [reflexivity| |exact R]. lia.
  - discriminate.
  - unfold arrays, ez_arrays. rewrite !len_cons. lia.
Qed.

(** No subshell, or a size that differs from the number of energies: rejected. *)
Lemma ez_of_rejects energies elastic brems exc ions :
  ions = [] \/ ~ all_len (len energies) (elastic :: brems :: exc :: ions) -> ez_of energies elastic brems exc ions = Throw StdException.
Proof.
  intros H. unfold ez_of. destruct ions as [|i0 rest]; [reflexivity|]. destruct H as [H|H]; [discriminate|].
  unfold ez_generateArrays. unfold throw_if. destruct (_ || _) eqn:E; [reflexivity|]. exfalso. apply H.
  apply orb_false_iff in E as [E E4]. apply orb_false_iff in E as [E E3]. apply orb_false_iff in E as [E1 E2].
  constructor; [lia|]. constructor; [lia|]. constructor; [lia|]. unfold all_len. apply Forall_forall. intros c Hc.
  destruct (Z.eqb_spec (len c) (len energies)); [assumption|].
  assert (X : existsb (fun v => negb (len v =? len energies)) (i0 :: rest) = true).
  { apply existsb_exists. exists c. split; [exact Hc|]. destruct (Z.eqb_spec (len c) (len energies)); [lia|reflexivity]. }
  congruence.
Qed.

(** * TRAN and XPROB *)

(** electron::SubshellTransitionData, src/generateArrays.hpp:1-33 *)
Fixpoint zip4 (p s : list Z) (e q : list double) : list (list double) :=
  match p, s, e, q with
  | a :: p, b :: s, x :: e, y :: q => [dbl a; dbl b; x; y] :: zip4 p s e q
  | _, _, _, _ => []
  end.
Definition tr_generateArrays (primary secondary : list Z) (energies probabilities : list double) : outcome (list (list double)) :=
  let nt := len primary in
  _ <- throw_if (negb (len secondary =? nt) || negb (len energies =? nt) || negb (len probabilities =? nt)) StdException ;;
  Ok (zip4 primary secondary energies probabilities).
(** ctor.hpp:17-24, 33-34, calculateNumberTransitions.hpp:1-13 *)
Definition tr_of primary secondary energies probabilities : outcome arrayData :=
  a <- tr_generateArrays primary secondary energies probabilities ;; ad_of_arrays a.
Definition tr_make (v : view) : outcome arrayData :=
  let size := s64 (vend v - vbeg v) in
  _ <- throw_if (negb (Z.rem size 4 =? 0)) StdException ;; ad_make v 4 (u32 (Z.quot size 4)).
(** SubshellTransitionData.hpp:51-117 *)
Definition tr_NT (o : arrayData) : Z := ad_m o.
Definition tr_transition bm o index := ad_darray bm o index.
Definition tr_primaryDesignator bm o index : outcome Z := k <- ad_ivalue bm o index 1 ;; nonneg_or_UB k.
Definition tr_secondaryDesignator bm o index : outcome Z := k <- ad_ivalue bm o index 2 ;; nonneg_or_UB k.
Definition tr_energy bm o index := ad_dvalue bm o index 3.
Definition tr_probability bm o index := ad_dvalue bm o index 4.
Definition tr_isRadiative bm o index : outcome bool := s <- tr_secondaryDesignator bm o index ;; Ok (0 =? s).

(** One transition. *)
Record tr_in := TrIn { ti_primary : Z; ti_secondary : Z; ti_energy : double; ti_probability : double }.
Definition tr_row (t : tr_in) : list double := [dbl (ti_primary t); dbl (ti_secondary t); ti_energy t; ti_probability t].
Definition tr_valid (t : tr_in) : Prop := 0 <= ti_primary t < 2 ^ 31 /\ 0 <= ti_secondary t < 2 ^ 31.
Definition tr_words (ts : list tr_in) : list double := concat (map tr_row ts).
Definition tr_shows bm o (ts : list tr_in) : Prop :=
  tr_NT o = len ts
  /\ forall k t, nth_error ts k = Some t -> let i := Z.of_nat k + 1 in
       tr_transition bm o i = Ok (tr_row t) /\ tr_primaryDesignator bm o i = Ok (ti_primary t) /\ tr_secondaryDesignator bm o i = Ok (ti_secondary t)
       /\ tr_energy bm o i = Ok (ti_energy t) /\ tr_probability bm o i = Ok (ti_probability t)
       /\ tr_isRadiative bm o i = Ok (ti_secondary t =? 0).

Lemma zip4_rows ts : zip4 (map ti_primary ts) (map ti_secondary ts) (map ti_energy ts) (map ti_probability ts) = map tr_row ts.
Proof. induction ts as [|t ts IH]; [reflexivity|]. cbn [map zip4]. rewrite IH. reflexivity. Qed.

Lemma tr_all_len ts : all_len 4 (map tr_row ts).
Proof. unfold all_len. apply Forall_map. apply Forall_forall. intros t _. reflexivity. Qed.

Lemma tr_reads bm o n ts : Forall tr_valid ts -> ad_reads bm o n (map tr_row ts) -> tr_shows bm o ts.
Proof.
  intros V (N & M & D & _ & X & I). split; [unfold tr_NT; rewrite M, len_map; reflexivity|].
  intros k t Hk i. pose proof (map_nth_error tr_row k ts Hk) as Hr.
  assert (Vt : tr_valid t) by (rewrite Forall_forall in V; apply V; eapply nth_error_In; exact Hk). destruct Vt as [V1 V2].
  assert (P1 : tr_primaryDesignator bm o i = Ok (ti_primary t)).
  { unfold tr_primaryDesignator. pose proof (I k _ 0%nat (ti_primary t) Hr eq_refl ltac:(lia)) as E. change (Z.of_nat 0 + 1) with 1 in E. fold i in E. rewrite E.
    cbn [bind]. unfold nonneg_or_UB. destruct (Z.leb_spec 0 (ti_primary t)); [reflexivity|lia]. }
  assert (P2 : tr_secondaryDesignator bm o i = Ok (ti_secondary t)).
  { unfold tr_secondaryDesignator. pose proof (I k _ 1%nat (ti_secondary t) Hr eq_refl ltac:(lia)) as E. change (Z.of_nat 1 + 1) with 2 in E. fold i in E. rewrite E.
    cbn [bind]. unfold nonneg_or_UB. destruct (Z.leb_spec 0 (ti_secondary t)); [reflexivity|lia]. }
  split; [exact (D k _ Hr)|]. split; [exact P1|]. split; [exact P2|]. split; [exact (X k _ 2%nat _ Hr eq_refl)|]. split; [exact (X k _ 3%nat _ Hr eq_refl)|].
  unfold tr_isRadiative. rewrite P2. cbn [bind]. rewrite Z.eqb_sym. reflexivity.
Qed.

Lemma len_tr_words ts : len (tr_words ts) = 4 * len ts.
Proof. unfold tr_words. rewrite (len_concat 4) by apply tr_all_len. rewrite len_map. lia. Qed.

Lemma tr_of_ok bm ts : Forall tr_valid ts -> 4 * len ts < max_words ->
  exists o, tr_of (map ti_primary ts) (map ti_secondary ts) (map ti_energy ts) (map ti_probability ts) = Ok o
    /\ content (ad_v o) (tr_words ts) /\ tr_shows bm o ts.
Proof.
  intros V B. unfold tr_of, tr_generateArrays. rewrite !len_map, Z.eqb_refl. cbn [negb orb throw_if bind]. rewrite zip4_rows.
  destruct ts as [|t ts].
  - eexists. split; [reflexivity|]. split; [apply own_content; cbn; unfold max_words; lia|]. apply (tr_reads bm _ 0 []); [constructor|].
    repeat split; intros [|k]; discriminate.
  - destruct (ad_reads_of bm 4 (map tr_row (t :: ts)) (tr_all_len _)) as (o & E & C & R).
    + discriminate.
    + rewrite len_map. unfold max_words in B. lia.
    + fold (tr_words (t :: ts)). rewrite len_tr_words. exact B.
    + exists o. split; [exact E|]. split; [exact C|]. eapply tr_reads; eassumption.
Qed.

Lemma tr_make_content bm v ts : Forall tr_valid ts -> content v (tr_words ts) -> exists o, tr_make v = Ok o /\ ad_v o = v /\ tr_shows bm o ts.
Proof.
  intros V C. pose proof (has_bounds _ _ (content_has _ _ C)) as B. pose proof (proj2 C) as E. rewrite len_tr_words in *. pose proof (len_nonneg ts).
  unfold tr_make. rewrite s64_small by lia. replace (vend v - vbeg v) with (len ts * 4) by lia.
  rewrite Z.rem_mul, Z.quot_mul by lia. cbn [negb throw_if bind Z.eqb]. rewrite u32_small by lia.
  destruct (ad_reads_has bm v 4 (map tr_row ts) (tr_all_len ts)) as [M R].
  - lia.
  - rewrite len_map. lia.
  - apply content_has. exact C.
  - rewrite len_map in *. eexists. split; [exact M|]. split; [reflexivity|]. eapply tr_reads; eassumption.
Qed.

Lemma tr_of_rejects p s e q : len s <> len p \/ len e <> len p \/ len q <> len p -> tr_of p s e q = Throw StdException.
Proof.
  intros H. unfold tr_of, tr_generateArrays, throw_if. destruct (_ || _) eqn:E; [reflexivity|]. lia.
Qed.
Lemma tr_make_rejects v l : content v l -> ~ (4 | len l) -> tr_make v = Throw StdException.
Proof.
  intros C H. pose proof (has_bounds _ _ (content_has _ _ C)) as B. pose proof (proj2 C) as E. pose proof (len_nonneg l). unfold tr_make. rewrite s64_small by lia.
  replace (vend v - vbeg v) with (len l) by lia. unfold throw_if. destruct (Z.eqb_spec (Z.rem (len l) 4) 0) as [E'|]; [|reflexivity].
  exfalso. apply H. apply Z.rem_divide; [lia|exact E'].
Qed.

(** electron::SubshellTransitionDataBlock (XPROB), ctor.hpp:14-16, 26-28: a block with offsets
    (locator flag false); NSSH(), LTRAN, transitionData: hpp:42-94 are N, LLOC and data. *)
Definition xp_gd (_ : Z) (v : view) : outcome arrayData := tr_make v.

(** * ESZG, JFLO, LHNM, SPHEL *)

(** photoatomic::PrincipalCrossSectionBlock (ESZG), ctor.hpp:18-26, 35-36: five arrays; energies(),
    incoherent(), coherent(), photoelectric(), pairproduction(): hpp:54-74 *)
Definition eg_of (en inc coh pe pp : list double) : outcome arrayData := ad_of_arrays [en; inc; coh; pe; pp].
Definition eg_make (v : view) (nes : Z) : outcome arrayData := ad_make v nes 5.
Definition eg_NES (o : arrayData) : Z := ad_n o.
Definition eg_energies bm o := ad_darray bm o 1.
Definition eg_incoherent bm o := ad_darray bm o 2.
Definition eg_coherent bm o := ad_darray bm o 3.
Definition eg_photoelectric bm o := ad_darray bm o 4.
Definition eg_pairproduction bm o := ad_darray bm o 5.
Definition eg_shows bm o (en inc coh pe pp : list double) : Prop :=
  eg_NES o = len en /\ eg_energies bm o = Ok en /\ eg_incoherent bm o = Ok inc /\ eg_coherent bm o = Ok coh
  /\ eg_photoelectric bm o = Ok pe /\ eg_pairproduction bm o = Ok pp.
Lemma eg_block bm en inc coh pe pp : all_len (len en) [en; inc; coh; pe; pp] ->
  (len (concat [en; inc; coh; pe; pp]) < max_words -> exists o, eg_of en inc coh pe pp = Ok o /\ content (ad_v o) (concat [en; inc; coh; pe; pp]) /\ eg_shows bm o en inc coh pe pp)
  /\ (forall v, has v (concat [en; inc; coh; pe; pp]) -> exists o, eg_make v (len en) = Ok o /\ ad_v o = v /\ eg_shows bm o en inc coh pe pp).
Proof.
  intros AL. unfold eg_of, eg_make. change 5 with (len [en; inc; coh; pe; pp]). adb. intros o (N & _ & D & _).
  split; [exact N|]. split; [exact (D 0%nat _ eq_refl)|]. split; [exact (D 1%nat _ eq_refl)|]. split; [exact (D 2%nat _ eq_refl)|].
  split; [exact (D 3%nat _ eq_refl)|exact (D 4%nat _ eq_refl)].
Qed.

(** photoatomic::FluorescenceDataBlock (JFLO), ctor.hpp:17-24, 33-34; E(), PHI(), Y(), F(): hpp:50-85 *)
Definition jf_of (e phi y f : list double) : outcome arrayData := ad_of_arrays [e; phi; y; f].
Definition jf_make (v : view) (nflo : Z) : outcome arrayData := ad_make v nflo 4.
Definition jf_NFLO (o : arrayData) : Z := ad_n o.
Definition jf_E bm o := ad_darray bm o 1.
Definition jf_PHI bm o := ad_darray bm o 2.
Definition jf_Y bm o := ad_darray bm o 3.
Definition jf_F bm o := ad_darray bm o 4.
Definition jf_shows bm o (e phi y f : list double) : Prop :=
  jf_NFLO o = len e /\ jf_E bm o = Ok e /\ jf_PHI bm o = Ok phi /\ jf_Y bm o = Ok y /\ jf_F bm o = Ok f.
Lemma jf_block bm e phi y f : all_len (len e) [e; phi; y; f] ->
  (len (concat [e; phi; y; f]) < max_words -> exists o, jf_of e phi y f = Ok o /\ content (ad_v o) (concat [e; phi; y; f]) /\ jf_shows bm o e phi y f)
  /\ (forall v, has v (concat [e; phi; y; f]) -> exists o, jf_make v (len e) = Ok o /\ ad_v o = v /\ jf_shows bm o e phi y f).
Proof.
  intros AL. unfold jf_of, jf_make. change 4 with (len [e; phi; y; f]). adb. intros o (N & _ & D & _).
  split; [exact N|]. split; [exact (D 0%nat _ eq_refl)|]. split; [exact (D 1%nat _ eq_refl)|]. split; [exact (D 2%nat _ eq_refl)|exact (D 3%nat _ eq_refl)].
Qed.

(** photoatomic::HeatingNumbersBlock (LHNM), ctor.hpp:14-16, 25-26, hpp:37-47: one array, as LQR
    ([lq_of], [lq_make], [lq_QValues] for heating()). *)

(** photoatomic::PhotoelectricCrossSectionBlock (SPHEL), ctor.hpp:15-17, 27-29, hpp:43-71, verifyIndex.hpp:1-9 *)
Definition sp_of (xs : list (list double)) : outcome arrayData := ad_of_arrays xs.
Definition sp_make (v : view) (nssh nes : Z) : outcome arrayData := ad_make v nes nssh.
Definition sp_NES (o : arrayData) : Z := ad_n o.
Definition sp_NSSH (o : arrayData) : Z := ad_m o.
Definition sp_photoelectric bm o index : outcome (list double) :=
  _ <- check bm (verifyIndex (u64 index) 1 (sp_NSSH o)) ;; ad_darray bm o index.
Definition sp_shows bm o (nes : Z) (xs : list (list double)) : Prop :=
  sp_NES o = nes /\ sp_NSSH o = len xs
  /\ (forall k c, nth_error xs k = Some c -> sp_photoelectric bm o (Z.of_nat k + 1) = Ok c)
  /\ (forall i, u64 i < 1 \/ len xs < u64 i -> sp_photoelectric Debug o i = Throw OutOfRange).
Lemma sp_reads bm o nes xs : len xs < 2 ^ 31 -> ad_reads bm o nes xs -> sp_shows bm o nes xs.
Proof.
  intros L (N & M & D & _). split; [exact N|]. split; [exact M|]. split.
  - intros k c Hk. pose proof (nth_error_len _ _ _ Hk). unfold sp_photoelectric. unfold sp_NSSH. rewrite M. rewrite u64_small by lia.
    rewrite check_verifyIndex by lia. cbn [bind]. apply D. exact Hk.
  - intros i Hi. unfold sp_photoelectric, check, verifyIndex, throw_if. cbn [debug]. unfold sp_NSSH. rewrite M.
    destruct ((u64 i <? 1) || (len xs <? u64 i)) eqn:E'; [reflexivity|lia].
Qed.
Lemma sp_block bm nes xs : all_len nes xs -> xs <> [] -> len xs < 2 ^ 31 ->
  (len (concat xs) < max_words -> exists o, sp_of xs = Ok o /\ content (ad_v o) (concat xs) /\ sp_shows bm o nes xs)
  /\ (forall v, has v (concat xs) -> exists o, sp_make v (len xs) nes = Ok o /\ ad_v o = v /\ sp_shows bm o nes xs).
Proof.
  intros AL NE L. unfold sp_of, sp_make. apply (ad_block bm nes xs); try assumption. intros o. apply sp_reads. exact L.
Qed.

(** * JINC and JCOH *)

(** a decimal constant, correctly rounded *)
Definition dec (num den : Z) : double := SFdiv 53 1024 (dbl num) (dbl den).

(** photoatomic::IncoherentScatteringFunctionBlock: the array data and the standard momentum grid
    (hpp:31); src/ctor.hpp:18-19 *)
Record jinc := Jinc { ji_a : arrayData; ji_momentum_ : option (list double) }.
Definition ji_standard : list double :=
  map (fun p => dec (fst p) (snd p))
    [(0, 1); (5, 1000); (1, 100); (5, 100); (1, 10); (15, 100); (2, 10); (3, 10); (4, 10); (5, 10); (6, 10); (7, 10); (8, 10); (9, 10);
     (1, 1); (15, 10); (2, 1); (3, 1); (4, 1); (5, 1); (8, 1)].
(** ctor.hpp:14-20 with generateArrays.hpp:1-12; ctor.hpp:28-30; ctor.hpp:37-61 with numberElements.hpp:1-19 and numberArrays.hpp:1-4 *)
Definition ji_of_values (values : list double) : outcome jinc :=
  _ <- throw_if (negb (21 =? len values)) StdException ;; a <- ad_of_arrays [values] ;; Ok (Jinc a (Some ji_standard)).
Definition ji_of (momentum values : list double) : outcome jinc := a <- ad_of_arrays [momentum; values] ;; Ok (Jinc a None).
Definition ji_make (v : view) : outcome jinc :=
  let size := s64 (vend v - vbeg v) in
  n <- (if 21 =? size then Ok 21 else _ <- throw_if (negb (0 =? Z.rem size 2)) StdException ;; Ok (u32 (Z.quot size 2))) ;;
  a <- ad_make v n (if size =? 21 then 1 else 2) ;;
  Ok (Jinc a (if u32 size =? 21 then Some ji_standard else None)).
(** NM(), momentum(), values(): hpp:48-77 *)
Definition ji_NM (o : jinc) : Z := ad_n (ji_a o).
Definition ji_momentum bm (o : jinc) : outcome (list double) := match ji_momentum_ o with Some m => Ok m | None => ad_darray bm (ji_a o) 1 end.
Definition ji_values bm (o : jinc) : outcome (list double) := ad_darray bm (ji_a o) (match ji_momentum_ o with Some _ => 1 | None => 2 end).
Definition ji_shows bm (o : jinc) (momentum values : list double) : Prop :=
  ji_NM o = len values /\ ji_momentum bm o = Ok momentum /\ ji_values bm o = Ok values.

Lemma ji_values_block bm values : len values = 21 ->
  (exists o, ji_of_values values = Ok o /\ content (ad_v (ji_a o)) values /\ ji_shows bm o ji_standard values)
  /\ (forall v, content v values -> exists o, ji_make v = Ok o /\ ad_v (ji_a o) = v /\ ji_shows bm o ji_standard values).
Proof.
  intros L. assert (AL : all_len 21 [values]) by (constructor; [exact L|constructor]).
  assert (C1 : concat [values] = values) by (cbn [concat]; apply app_nil_r).
  destruct (ad_block bm 21 [values] (fun o => ji_shows bm (Jinc o (Some ji_standard)) ji_standard values)) as [A B]; try assumption; try discriminate; try reflexivity.
  - intros o (N & _ & D & _). split; [unfold ji_NM; cbn [ji_a]; congruence|]. split; [reflexivity|]. exact (D 0%nat _ eq_refl).
  - rewrite C1 in A, B. split.
    + destruct A as (o & E & C & S); [unfold max_words; lia|]. exists (Jinc o (Some ji_standard)). unfold ji_of_values. rewrite L. cbn [Z.eqb negb throw_if bind].
      change (21 =? 21) with true. cbn [negb throw_if bind]. rewrite E. auto.
    + intros v C. pose proof (has_bounds _ _ (content_has _ _ C)) as Bd. pose proof (proj2 C) as E. unfold ji_make. rewrite s64_small by lia.
      replace (vend v - vbeg v) with 21 by lia. change (21 =? 21) with true. change (u32 21 =? 21) with true. cbn [bind].
      destruct (B v (content_has _ _ C)) as (o & M & V & S). change (len [values]) with 1 in M. rewrite M. cbn [bind]. eexists. split; [reflexivity|]. auto.
Qed.

Lemma ji_block bm momentum values : len values = len momentum ->
  (2 * len values < max_words -> exists o, ji_of momentum values = Ok o /\ content (ad_v (ji_a o)) (momentum ++ values) /\ ji_shows bm o momentum values)
  /\ (forall v, content v (momentum ++ values) -> exists o, ji_make v = Ok o /\ ad_v (ji_a o) = v /\ ji_shows bm o momentum values).
Proof.
  intros L. assert (AL : all_len (len momentum) [momentum; values]) by (constructor; [reflexivity|constructor; [exact L|constructor]]).
  assert (C1 : concat [momentum; values] = momentum ++ values) by (cbn [concat]; rewrite app_nil_r; reflexivity).
  destruct (ad_block bm (len momentum) [momentum; values] (fun o => ji_shows bm (Jinc o None) momentum values)) as [A B]; try assumption; try discriminate; try reflexivity.
  - intros o (N & _ & D & _). split; [unfold ji_NM; cbn [ji_a]; congruence|]. split; [exact (D 0%nat _ eq_refl)|exact (D 1%nat _ eq_refl)].
  - rewrite C1 in A, B. split.
    + intros Bd. destruct A as (o & E & C & S); [rewrite len_app; lia|]. exists (Jinc o None). unfold ji_of. rewrite E. auto.
    + intros v C. pose proof (has_bounds _ _ (content_has _ _ C)) as Bd. pose proof (proj2 C) as E. rewrite len_app in *. pose proof (len_nonneg momentum).
      unfold ji_make. rewrite s64_small by lia. replace (vend v - vbeg v) with (len momentum * 2) by lia.
      destruct (Z.eqb_spec 21 (len momentum * 2)); [lia|]. destruct (Z.eqb_spec (len momentum * 2) 21); [lia|].
      rewrite (u32_small (len momentum * 2)) by lia. destruct (Z.eqb_spec (len momentum * 2) 21); [lia|].
      rewrite Z.rem_mul, Z.quot_mul by lia. cbn [Z.eqb negb throw_if bind]. rewrite u32_small by lia.
      destruct (B v (content_has _ _ C)) as (o & M & V & S). change (len [momentum; values]) with 2 in M. rewrite M. cbn [bind]. eexists. split; [reflexivity|]. auto.
Qed.

(** photoatomic::CoherentFormFactorBlock: hpp:28, src/ctor.hpp:20-24 *)
Definition jc_standard : list double :=
  map (fun k => dec k 100)
    [0; 1; 2; 3; 4; 5; 6; 8; 10; 12; 15; 18; 20; 25; 30; 35; 40; 45; 50; 55; 60; 70; 80; 90; 100; 110; 120; 130; 140; 150; 160; 170; 180;
     190; 200; 220; 240; 260; 280; 300; 320; 340; 360; 380; 400; 420; 440; 460; 480; 500; 520; 540; 560; 580; 600].
(** ctor.hpp:15-25 with generateArrays.hpp:1-13; ctor.hpp:34-38; ctor.hpp:45-72 with numberElements.hpp, numberArrays.hpp *)
Definition jc_of2 (integrated factors : list double) : outcome jinc :=
  _ <- throw_if (negb (110 =? len integrated + len factors)) StdException ;; a <- ad_of_arrays [integrated; factors] ;; Ok (Jinc a (Some jc_standard)).
Definition jc_of (momentum integrated factors : list double) : outcome jinc := a <- ad_of_arrays [momentum; integrated; factors] ;; Ok (Jinc a None).
Definition jc_make (v : view) : outcome jinc :=
  let size := s64 (vend v - vbeg v) in
  n <- (if 110 =? size then Ok 55 else _ <- throw_if (negb (0 =? Z.rem size 3)) StdException ;; Ok (u32 (Z.quot size 3))) ;;
  a <- ad_make v n (if size =? 110 then 2 else 3) ;;
  Ok (Jinc a (if u32 size =? 110 then Some jc_standard else None)).
(** NM(), momentum(), integratedFormFactors(), formFactors(): hpp:45-84 *)
Definition jc_integrated bm (o : jinc) : outcome (list double) := ad_darray bm (ji_a o) (match ji_momentum_ o with Some _ => 1 | None => 2 end).
Definition jc_factors bm (o : jinc) : outcome (list double) := ad_darray bm (ji_a o) (match ji_momentum_ o with Some _ => 2 | None => 3 end).
Definition jc_shows bm (o : jinc) (momentum integrated factors : list double) : Prop :=
  ji_NM o = len factors /\ ji_momentum bm o = Ok momentum /\ jc_integrated bm o = Ok integrated /\ jc_factors bm o = Ok factors.

Lemma jc_block2 bm integrated factors : len integrated = 55 -> len factors = 55 ->
  (exists o, jc_of2 integrated factors = Ok o /\ content (ad_v (ji_a o)) (integrated ++ factors) /\ jc_shows bm o jc_standard integrated factors)
  /\ (forall v, content v (integrated ++ factors) -> exists o, jc_make v = Ok o /\ ad_v (ji_a o) = v /\ jc_shows bm o jc_standard integrated factors).
Proof.
  intros L1 L2. assert (AL : all_len 55 [integrated; factors]) by (constructor; [exact L1|constructor; [exact L2|constructor]]).
  assert (C1 : concat [integrated; factors] = integrated ++ factors) by (cbn [concat]; rewrite app_nil_r; reflexivity).
  destruct (ad_block bm 55 [integrated; factors] (fun o => jc_shows bm (Jinc o (Some jc_standard)) jc_standard integrated factors)) as [A B]; try assumption; try discriminate; try reflexivity.
  - intros o (N & _ & D & _). split; [unfold ji_NM; cbn [ji_a]; congruence|]. split; [reflexivity|]. split; [exact (D 0%nat _ eq_refl)|exact (D 1%nat _ eq_refl)].
  - rewrite C1 in A, B. split.
    + destruct A as (o & E & C & S); [rewrite len_app; unfold max_words; lia|]. exists (Jinc o (Some jc_standard)). unfold jc_of2. rewrite L1, L2.
      change (110 =? 55 + 55) with true. cbn [negb throw_if bind]. rewrite E. auto.
    + intros v C. pose proof (has_bounds _ _ (content_has _ _ C)) as Bd. pose proof (proj2 C) as E. rewrite len_app in *. unfold jc_make. rewrite s64_small by lia.
      replace (vend v - vbeg v) with 110 by lia. change (110 =? 110) with true. change (u32 110 =? 110) with true. cbn [bind].
      destruct (B v (content_has _ _ C)) as (o & M & V & S). change (len [integrated; factors]) with 2 in M. rewrite M. cbn [bind]. eexists. split; [reflexivity|]. auto.
Qed.

Lemma jc_block bm momentum integrated factors : len integrated = len momentum -> len factors = len momentum ->
  (3 * len momentum < max_words -> exists o, jc_of momentum integrated factors = Ok o /\ content (ad_v (ji_a o)) (momentum ++ integrated ++ factors) /\ jc_shows bm o momentum integrated factors)
  /\ (forall v, content v (momentum ++ integrated ++ factors) -> exists o, jc_make v = Ok o /\ ad_v (ji_a o) = v /\ jc_shows bm o momentum integrated factors).
Proof.
  intros L1 L2. assert (AL : all_len (len momentum) [momentum; integrated; factors]) by (constructor; [reflexivity|constructor; [exact L1|constructor; [exact L2|constructor]]]).
  assert (C1 : concat [momentum; integrated; factors] = momentum ++ integrated ++ factors) by (cbn [concat]; rewrite app_nil_r; reflexivity).
  destruct (ad_block bm (len momentum) [momentum; integrated; factors] (fun o => jc_shows bm (Jinc o None) momentum integrated factors)) as [A B]; try assumption; try discriminate; try reflexivity.
  - intros o (N & _ & D & _). split; [unfold ji_NM; cbn [ji_a]; congruence|]. split; [exact (D 0%nat _ eq_refl)|]. split; [exact (D 1%nat _ eq_refl)|exact (D 2%nat _ eq_refl)].
  - rewrite C1 in A, B. split.
    + intros Bd. destruct A as (o & E & C & S); [rewrite !len_app; lia|]. exists (Jinc o None). unfold jc_of. rewrite E. auto.
    + intros v C. pose proof (has_bounds _ _ (content_has _ _ C)) as Bd. pose proof (proj2 C) as E. rewrite !len_app in *. pose proof (len_nonneg momentum).
      unfold jc_make. rewrite s64_small by lia. replace (vend v - vbeg v) with (len momentum * 3) by lia.
      destruct (Z.eqb_spec 110 (len momentum * 3)); [lia|]. destruct (Z.eqb_spec (len momentum * 3) 110); [lia|].
      rewrite (u32_small (len momentum * 3)) by lia. destruct (Z.eqb_spec (len momentum * 3) 110); [lia|].
      rewrite Z.rem_mul, Z.quot_mul by lia. cbn [Z.eqb negb throw_if bind]. rewrite u32_small by lia.
      destruct (B v (content_has _ _ C)) as (o & M & V & S). change (len [momentum; integrated; factors]) with 3 in M. rewrite M. cbn [bind]. eexists. split; [reflexivity|]. auto.
Qed.

(** Sizes that cannot be right are rejected. *)
Lemma ji_rejects : (forall values, len values <> 21 -> ji_of_values values = Throw StdException)
  /\ (forall m x, len x <> len m -> ji_of m x = Throw StdException)
  /\ (forall v l, content v l -> len l <> 21 -> ~ (2 | len l) -> ji_make v = Throw StdException).
Proof.
  split; [|split].
  - intros x H. unfold ji_of_values, throw_if. destruct (Z.eqb_spec 21 (len x)); [lia|reflexivity].
  - intros m x H. unfold ji_of. rewrite ad_of_ragged; [reflexivity|]. intros A. inversion A as [|? ? _ A1]; subst. inversion A1; subst. lia.
  - intros v l C H1 H2. pose proof (has_bounds _ _ (content_has _ _ C)) as B. pose proof (proj2 C) as E. pose proof (len_nonneg l). unfold ji_make. rewrite s64_small by lia.
    replace (vend v - vbeg v) with (len l) by lia. destruct (Z.eqb_spec 21 (len l)); [lia|]. unfold throw_if.
    destruct (Z.eqb_spec 0 (Z.rem (len l) 2)) as [E'|]; [|reflexivity]. exfalso. apply H2. apply Z.rem_divide; [lia|auto].
Qed.
Lemma jc_rejects : (forall i f, len i <> 55 \/ len f <> 55 -> jc_of2 i f = Throw StdException)
  /\ (forall m i f, len i <> len m \/ len f <> len m -> jc_of m i f = Throw StdException)
  /\ (forall v l, content v l -> len l <> 110 -> ~ (3 | len l) -> jc_make v = Throw StdException).
Proof.
  split; [|split].
  - intros i f H. unfold jc_of2, throw_if. destruct (Z.eqb_spec 110 (len i + len f)); [|reflexivity]. cbn [negb bind].
    rewrite ad_of_ragged; [reflexivity|]. intros A. inversion A as [|? ? _ A1]; subst. inversion A1; subst. lia.
  - intros m i f H. unfold jc_of. rewrite ad_of_ragged; [reflexivity|]. intros A. inversion A as [|? ? _ A1]; subst. inversion A1 as [|? ? ? A2]; subst. inversion A2; subst. lia.
  - intros v l C H1 H2. pose proof (has_bounds _ _ (content_has _ _ C)) as B. pose proof (proj2 C) as E. pose proof (len_nonneg l). unfold jc_make. rewrite s64_small by lia.
    replace (vend v - vbeg v) with (len l) by lia. destruct (Z.eqb_spec 110 (len l)); [lia|]. unfold throw_if.
    destruct (Z.eqb_spec 0 (Z.rem (len l) 3)) as [E'|]; [|reflexivity]. exfalso. apply H2. apply Z.rem_divide; [lia|auto].
Qed.

(** * SWD and SIGD *)

(** photoatomic::ComptonProfile (ctor.hpp:17-23, 31-32) is a TabulatedProbabilityDistribution
    ([tp_make], [tp_values] for momentum()); photoatomic::ComptonProfileBlock (SWD), ctor.hpp:14-15,
    25-26, is a block with locators of these; dosimetry::CrossSectionData is a TabulatedData,
    dosimetry::CrossSectionBlock (SIGD), ctor.hpp:14-15, 25-26, a block with locators of these. *)
Definition swd_gd bm (_ : Z) (v : view) : outcome view := tp_make bm v.
Definition sigd_gd bm (_ : Z) (v : view) : outcome tabulatedData := td_make bm v.

(** * ESZU *)

(** photonuclear::PrincipalCrossSectionBlock, ctor.hpp:17-23, 32-37, 46-48; hpp:42-68 *)
Definition eu_of (en tot : list double) (el : option (list double)) (heat : list double) : outcome arrayData :=
  match el with Some el => ad_of_arrays [en; tot; el; heat] | None => ad_of_arrays [en; tot; heat] end.
Definition eu_make (v : view) (nes size : Z) : outcome arrayData := ad_make v nes size.
Definition eu_NES (o : arrayData) : Z := ad_n o.
Definition eu_energies bm o := ad_darray bm o 1.
Definition eu_total bm o := ad_darray bm o 2.
Definition eu_elastic bm o : outcome (list double) := if ad_m o =? 3 then xssr bm (ad_v o) 1 0 else ad_darray bm o 3.
Definition eu_heating bm o := ad_darray bm o (ad_m o).
Definition eu_arrays (en tot : list double) (el : option (list double)) (heat : list double) :=
  match el with Some el => [en; tot; el; heat] | None => [en; tot; heat] end.
Definition eu_shows bm o (en tot : list double) (el : option (list double)) (heat : list double) : Prop :=
  eu_NES o = len en /\ eu_energies bm o = Ok en /\ eu_total bm o = Ok tot
  /\ eu_elastic bm o = Ok (match el with Some el => el | None => [] end) /\ eu_heating bm o = Ok heat.

Lemma eu_block bm en tot el heat : all_len (len en) (eu_arrays en tot el heat) -> let l := concat (eu_arrays en tot el heat) in
  (len l < max_words -> exists o, eu_of en tot el heat = Ok o /\ content (ad_v o) l /\ eu_shows bm o en tot el heat)
  /\ (forall v, has v l -> exists o, eu_make v (len en) (len (eu_arrays en tot el heat)) = Ok o /\ ad_v o = v /\ eu_shows bm o en tot el heat).
Proof.
  intros AL l. subst l.
  assert (P : eu_of en tot el heat = ad_of_arrays (eu_arrays en tot el heat)) by (destruct el; reflexivity). rewrite P. clear P. unfold eu_make.
  assert (NE : eu_arrays en tot el heat <> []) by (destruct el; discriminate).
  assert (S : forall o, has (ad_v o) [] -> ad_reads bm o (len en) (eu_arrays en tot el heat) -> eu_shows bm o en tot el heat).
  { intros o Hnil (N & M & D & _). split; [exact N|]. unfold eu_energies, eu_total, eu_elastic, eu_heating. destruct el as [el|]; cbn [eu_arrays] in *; rewrite M.
    - split; [exact (D 0%nat _ eq_refl)|]. split; [exact (D 1%nat _ eq_refl)|]. split; [exact (D 2%nat _ eq_refl)|exact (D 3%nat _ eq_refl)].
    - split; [exact (D 0%nat _ eq_refl)|]. split; [exact (D 1%nat _ eq_refl)|]. split; [|exact (D 2%nat _ eq_refl)].
      change (len [en; tot; heat] =? 3) with true. cbn match. apply (xssr_has bm (ad_v o) [] [] []); [exact Hnil|reflexivity|reflexivity]. }
  assert (L : len (eu_arrays en tot el heat) < 2 ^ 31) by (destruct el; reflexivity).
  split.
  - intros B. destruct (ad_reads_of bm (len en) _ AL NE L B) as (o & E & C & R). exists o. split; [exact E|]. split; [exact C|]. apply S; [|exact R].
    eapply has_nil. apply content_has. exact C.
  - intros v Hv. pose proof (has_bounds _ _ Hv) as B. destruct (ad_reads_has bm v (len en) _ AL) as [M R]; try assumption.
    + rewrite (len_concat _ _ AL) in B. pose proof (len_nonneg en). assert (1 <= len (eu_arrays en tot el heat)) by (destruct el; reflexivity || (cbn; lia)). nia.
    + eexists. split; [exact M|]. split; [reflexivity|]. apply S; [|exact R]. eapply has_nil. exact Hv.
Qed.

(** * IXSU *)

(** photonuclear::SecondaryParticleLocatorBlock, src/generateXSS.hpp:1-28, ctor.hpp:6-13, 32-38, 47-51, verifySize.hpp:1-11.
    The record [ntro] of NTRO and IXS is reused (a view and the number of types). *)
Fixpoint iu_zip (types numbers : list Z) (locators : list (list Z)) : list (list Z) :=
  match types, numbers, locators with t :: ts, n :: ns, l :: ls => (t :: n :: l) :: iu_zip ts ns ls | _, _, _ => [] end.
Definition iu_generateXSS (types numbers : list Z) (locators : list (list Z)) : outcome (list double) :=
  _ <- throw_if (negb (len types =? len locators) || negb (len numbers =? len locators)) StdException ;;
  Ok (concat (map (map dbl) (iu_zip types numbers locators))).
Definition iu_of types numbers locators : outcome ntro :=
  l <- iu_generateXSS types numbers locators ;; Ok (Ntro (own l) (u32 (len locators))).
Definition iu_make (v : view) (ntype : Z) : outcome ntro := _ <- verify_at_least v (u32 (12 * ntype)) ;; Ok (Ntro v ntype).
(** LLOC, hpp:58-61; IP, NP, hpp:79-102 (size_t to unsigned int); the other accessors are LLOC( index, 3 ) to LLOC( index, 12 ) *)
Definition iu_NTYPE (o : ntro) : Z := nt_ntype o.
Definition iu_LLOC bm (o : ntro) (particle index : Z) : outcome Z := ixss_size bm (nt_v o) ((particle - 1) * 12 + index).
Definition iu_IP bm o index : outcome Z := k <- iu_LLOC bm o index 1 ;; Ok (u32 k).
Definition iu_NP bm o index : outcome Z := k <- iu_LLOC bm o index 2 ;; Ok (u32 k).
(** hasIP, hpp:219-230; index, hpp:247-260: loop over the types *)
Fixpoint iu_find bm (o : ntro) (type index : Z) (n : nat) : outcome (option Z) :=
  match n with
  | O => Ok None
  | S n => t <- iu_IP bm o index ;; if t =? type then Ok (Some index) else iu_find bm o type (index + 1) n
  end.
Definition iu_hasIP bm o type : outcome bool := r <- iu_find bm o type 1 (Z.to_nat (nt_ntype o)) ;; Ok (match r with Some _ => true | None => false end).
Definition iu_index bm o type : outcome Z := r <- iu_find bm o type 1 (Z.to_nat (nt_ntype o)) ;; match r with Some i => Ok i | None => Throw StdException end.

Definition iu_rows_valid (rows : list (list Z)) : Prop := Forall (fun r => len r = 12 /\ mt_valid r) rows.
Definition iu_words (rows : list (list Z)) : list double := concat (map (map dbl) rows).
Definition iu_shows bm (o : ntro) (rows : list (list Z)) : Prop :=
  iu_NTYPE o = len rows
  /\ (forall k r j z, nth_error rows k = Some r -> nth_error r j = Some z -> iu_LLOC bm o (Z.of_nat k + 1) (Z.of_nat j + 1) = Ok z)
  /\ (forall k r z, nth_error rows k = Some r -> nth_error r 0 = Some z -> iu_IP bm o (Z.of_nat k + 1) = Ok z)
  /\ (forall k r z, nth_error rows k = Some r -> nth_error r 1 = Some z -> iu_NP bm o (Z.of_nat k + 1) = Ok z)
  /\ (forall type, In type (map (fun r => hd 0 r) rows) ->
        iu_hasIP bm o type = Ok true /\ exists k, first_at type (map (fun r => hd 0 r) rows) k /\ iu_index bm o type = Ok (Z.of_nat k + 1))
  /\ (forall type, ~ In type (map (fun r => hd 0 r) rows) -> iu_hasIP bm o type = Ok false /\ iu_index bm o type = Throw StdException).

Lemma skipn_nth {A} (l : list A) k x : nth_error l k = Some x -> skipn k l = x :: skipn (S k) l.
Proof. revert k. induction l as [|a l IH]; intros [|k] H; try discriminate; [injection H as ->; reflexivity|]. cbn [skipn]. apply IH. exact H. Qed.

Lemma iu_has bm v rows : iu_rows_valid rows -> has v (iu_words rows) -> exists o, iu_make v (len rows) = Ok o /\ nt_v o = v /\ iu_shows bm o rows.
Proof.
  intros V Hv. assert (AL : all_len 12 (map (map dbl) rows)).
  { unfold all_len. apply Forall_map. eapply Forall_impl; [|exact V]. cbn. intros r [L _]. rewrite len_map. exact L. }
  pose proof (has_bounds _ _ Hv) as B. unfold iu_words in B. rewrite (len_concat 12 _ AL), len_map in B. pose proof (len_nonneg rows).
  exists (Ntro v (len rows)). split; [|split; [reflexivity|]].
  { unfold iu_make. rewrite u32_small by lia. rewrite (verify_at_least_has _ _ _ Hv); [reflexivity|].
    unfold iu_words. rewrite (len_concat 12 _ AL), len_map. lia. }
  assert (LL : forall k r j z, nth_error rows k = Some r -> nth_error r j = Some z -> iu_LLOC bm (Ntro v (len rows)) (Z.of_nat k + 1) (Z.of_nat j + 1) = Ok z /\ 0 <= z < 2 ^ 31).
  { intros k r j z Hk Hj. assert (Vz : 0 <= z < 2 ^ 31).
    { unfold iu_rows_valid in V. rewrite Forall_forall in V. destruct (V r (nth_error_In _ _ Hk)) as [_ Vr]. eapply mt_valid_nth; eassumption. }
    split; [|exact Vz]. unfold iu_LLOC, ixss_size, ixss. cbn [nt_v].
    assert (Hx := ad_xss_at bm v 12 (map (map dbl) rows) AL Hv k (map dbl r) j (dbl z) (map_nth_error _ _ _ Hk) (map_nth_error _ _ _ Hj)).
    rewrite Hx. cbn [bind]. rewrite to_int_dbl by lia. cbn [bind]. rewrite u64_small by lia. reflexivity. }
  assert (IP : forall k r z, nth_error rows k = Some r -> nth_error r 0 = Some z -> iu_IP bm (Ntro v (len rows)) (Z.of_nat k + 1) = Ok z).
  { intros k r z Hk Hz. destruct (LL k r 0%nat z Hk Hz) as [E Bz]. change (Z.of_nat 0 + 1) with 1 in E. unfold iu_IP. rewrite E. cbn [bind]. rewrite u32_small by lia. reflexivity. }
  assert (F : forall type n k0, (k0 + n = length rows)%nat ->
     (exists k, first_at type (skipn k0 (map (fun r => hd 0 r) rows)) k /\ iu_find bm (Ntro v (len rows)) type (Z.of_nat k0 + 1) n = Ok (Some (Z.of_nat (k0 + k) + 1)))
     \/ (~ In type (skipn k0 (map (fun r => hd 0 r) rows)) /\ iu_find bm (Ntro v (len rows)) type (Z.of_nat k0 + 1) n = Ok None)).
  { intros type. induction n as [|n IH]; intros k0 E.
    - right. rewrite skipn_all2 by (rewrite map_length; lia). split; [intros []|reflexivity].
    - destruct (nth_error rows k0) as [r|] eqn:Er; [|apply nth_error_None in Er; lia].
      assert (Lr : len r = 12) by (unfold iu_rows_valid in V; rewrite Forall_forall in V; apply V; eapply nth_error_In; exact Er).
      destruct r as [|z r]; [discriminate|].
      assert (Sk : skipn k0 (map (fun r => hd 0 r) rows) = z :: skipn (S k0) (map (fun r => hd 0 r) rows)).
      { rewrite !skipn_map, (skipn_nth _ _ _ Er). reflexivity. }
      rewrite Sk. cbn [iu_find]. rewrite (IP k0 _ z Er eq_refl). cbn [bind].
      destruct (Z.eqb_spec z type) as [->|Hne].
      + left. exists 0%nat. split; [|rewrite Nat.add_0_r; reflexivity]. split; [reflexivity|]. intros j Hj. lia.
      + replace (Z.of_nat k0 + 1 + 1) with (Z.of_nat (S k0) + 1) by lia.
        destruct (IH (S k0) ltac:(lia)) as [(k & [K1 K2] & Ek)|[N Ek]].
        * left. exists (S k). split; [split; [exact K1|]|rewrite Ek; do 3 f_equal; lia].
          intros [|j] Hj; cbn [nth_error]; [congruence|]. apply K2. lia.
        * right. split; [|exact Ek]. intros [->|I]; [congruence|contradiction]. }
  split; [reflexivity|]. split; [intros k r j z Hk Hj; apply (LL k r j z Hk Hj)|]. split; [exact IP|].
  split. { intros k r z Hk Hz. destruct (LL k r 1%nat z Hk Hz) as [E Bz]. change (Z.of_nat 1 + 1) with 2 in E. unfold iu_NP. rewrite E. cbn [bind]. rewrite u32_small by lia. reflexivity. }
  assert (G : forall type, (exists k, first_at type (map (fun r => hd 0 r) rows) k /\ iu_find bm (Ntro v (len rows)) type 1 (Z.to_nat (len rows)) = Ok (Some (Z.of_nat k + 1)))
     \/ (~ In type (map (fun r => hd 0 r) rows) /\ iu_find bm (Ntro v (len rows)) type 1 (Z.to_nat (len rows)) = Ok None)).
  { intros type. specialize (F type (length rows) 0%nat eq_refl). cbn [skipn Nat.add] in F. change (Z.of_nat 0 + 1) with 1 in F.
    replace (Z.to_nat (len rows)) with (length rows) by (unfold len; lia). exact F. }
  unfold iu_hasIP, iu_index. cbn [nt_ntype]. split; intros type Hin.
  - destruct (G type) as [(k & K & E)|[N _]]; [|contradiction]. rewrite E. cbn [bind]. split; [reflexivity|]. exists k. auto.
  - destruct (G type) as [(k & K & E)|[N E]].
    + exfalso. apply Hin. eapply nth_error_In. exact (proj1 K).
    + rewrite E. cbn [bind]. auto.
Qed.

Lemma iu_of_ok bm types numbers locators : len types = len locators -> len numbers = len locators ->
  iu_rows_valid (iu_zip types numbers locators) -> 12 * len locators < max_words ->
  exists o, iu_of types numbers locators = Ok o /\ content (nt_v o) (iu_words (iu_zip types numbers locators)) /\ iu_shows bm o (iu_zip types numbers locators).
Proof.
  intros L1 L2 V B. unfold iu_of, iu_generateXSS. rewrite L1, L2, Z.eqb_refl. cbn [negb orb throw_if bind].
  assert (L : len (iu_zip types numbers locators) = len locators).
  { clear V B. revert types numbers L1 L2. induction locators as [|l ls IH]; intros [|t ts] [|n ns] L1 L2; try reflexivity;
      rewrite ?len_cons, ?len_nil in *; pose proof (len_nonneg ls); try (pose proof (len_nonneg ts)); try (pose proof (len_nonneg ns)); try lia.
    cbn [iu_zip]. rewrite len_cons. rewrite IH; lia. }
  assert (AL : all_len 12 (map (map dbl) (iu_zip types numbers locators))).
  { unfold all_len. apply Forall_map. eapply Forall_impl; [|exact V]. cbn. intros r [Lr _]. rewrite len_map. exact Lr. }
  assert (C : content (own (iu_words (iu_zip types numbers locators))) (iu_words (iu_zip types numbers locators))).
  { apply own_content. unfold iu_words. rewrite (len_concat 12 _ AL), len_map. lia. }
  destruct (iu_has bm _ _ V (content_has _ _ C)) as (o & M & Vo & S). unfold iu_make in M. rewrite L in M.
  destruct (verify_at_least _ _) in M; try discriminate. cbn [bind] in M. apply Ok_inj in M. subst o.
  unfold max_words in B. pose proof (len_nonneg locators). rewrite u32_small by lia. eexists. split; [reflexivity|]. split; [exact C|exact S].
Qed.
Lemma iu_of_rejects types numbers locators : len types <> len locators \/ len numbers <> len locators -> iu_of types numbers locators = Throw StdException.
Proof. intros H. unfold iu_of, iu_generateXSS, throw_if. destruct (_ || _) eqn:E; [reflexivity|lia]. Qed.
