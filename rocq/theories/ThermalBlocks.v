(** The blocks of thermal scattering tables. *)
From Coq Require Import ZArith Bool List Lia Ascii.
From Coq Require Import ZifyBool ZifyNat.
From Verif Require Import PropLemmasBasic.
From Verif Require Export DosimetryTable ContinuousValues.
Import ListNotations.
Open Scope Z_scope.

(** * Cross sections: ITIE, ITCE, ITCEI *)

(** CrossSectionBlock, src/ACEtk/thermal/CrossSectionBlock/src/ctor.hpp:15-26 *)
Definition tc_of (energies xs : list double) : outcome columnData := cd_of_columns [energies; xs].
Definition tc_make (v : view) : outcome columnData := cd_make v 2.
(** NE(), energies(), crossSections(): src/ACEtk/thermal/CrossSectionBlock.hpp:31-46 *)
Definition tc_NE := cd_N.
Definition tc_energies bm c := cd_column bm c 1.
Definition tc_crossSections bm c := cd_column bm c 2.

(** * Elastic angular distributions: ITCA, ITCAI *)

(** ElasticAngularDistributionBlock, src/ACEtk/thermal/ElasticAngularDistributionBlock/src/ctor.hpp:14-30;
    the sizes are converted to unsigned int by ArrayData *)
Definition te_of (cosines : list (list double)) : outcome arrayData := ad_of_arrays cosines.
Definition te_make (v : view) (ne nc : Z) : outcome arrayData := ad_make v (u32 nc) (u32 ne).
(** NE(), NC(), NCL(), cosines(): src/ACEtk/thermal/ElasticAngularDistributionBlock.hpp:36-77;
    static_cast< int >( size_t ) *)
Definition te_NE (a : arrayData) : Z := ad_m a.
Definition te_NC (a : arrayData) : Z := ad_n a.
Definition te_NCL (a : arrayData) : Z := s32 (ad_n a) - 1.
Definition te_cosines bm (a : arrayData) (index : Z) : outcome (list double) := ad_darray bm a index.

(** * Discrete cosines *)

(** The alternatives of AngularDistributionData, src/ACEtk/thermal/InelasticAngularDistributionBlock.hpp:29-30:
    DiscreteCosines (src/ACEtk/thermal/DiscreteCosines.hpp:22-25) and DiscreteCosinesWithProbability
    (src/ACEtk/thermal/DiscreteCosinesWithProbability.hpp:24-27), each with the number of cosines. *)
Inductive cosData := CDisc (nc : Z) (v : view) | CProb (nc : Z) (v : view).

(** src/ACEtk/thermal/DiscreteCosines/src/ctor.hpp:15-34, generateXSS.hpp:1-7, verifySize.hpp:1-17 *)
Definition dc_make (nc : Z) (v : view) : outcome cosData :=
  _ <- throw_if (vlen v <? u64 (1 + nc)) StdException ;; Ok (CDisc nc v).
Definition dc_of (energy : double) (cosines : list double) : outcome cosData :=
  let v := own (energy :: cosines) in
  _ <- throw_if (len (energy :: cosines) <? u64 (1 + len cosines)) StdException ;; Ok (CDisc (len cosines) v).
(** src/ACEtk/thermal/DiscreteCosinesWithProbability/src/ctor.hpp:17-41, generateXSS.hpp:1-8, verifySize.hpp:1-18 *)
Definition dq_make (nc : Z) (v : view) : outcome cosData :=
  _ <- throw_if (vlen v <? u64 (3 + nc)) StdException ;; Ok (CProb nc v).
Definition dq_of (energy pdf cdf : double) (cosines : list double) : outcome cosData :=
  let l := energy :: pdf :: cdf :: cosines in
  _ <- throw_if (len l <? u64 (3 + len cosines)) StdException ;; Ok (CProb (len cosines) (own l)).

(** DiscreteCosines.hpp:39-57, DiscreteCosinesWithProbability.hpp:41-69 *)
Definition cos_NC (d : cosData) : Z := match d with CDisc nc _ | CProb nc _ => nc end.
Definition cos_v (d : cosData) : view := match d with CDisc _ v | CProb _ v => v end.
Definition cos_energy bm (d : cosData) : outcome double := xss bm (cos_v d) 1.
Definition cos_pdf bm (v : view) : outcome double := xss bm v 2.
Definition cos_cdf bm (v : view) : outcome double := xss bm v 3.
Definition cos_cosines bm (d : cosData) : outcome (list double) :=
  match d with CDisc nc v => xssr bm v 2 nc | CProb nc v => xssr bm v 4 nc end.

(** * Inelastic angular distributions: ITXE *)

(** src/ACEtk/thermal/InelasticAngularDistributionBlock.hpp:35-40 *)
Record itxe := Itxe { it_ifeng : Z; it_nc : Z; it_nieb : option Z; it_ne : Z; it_locb : Z; it_v : view; it_data : list (list cosData) }.

(** generateXSS for DiscreteCosines, src/ACEtk/thermal/InelasticAngularDistributionBlock/src/generateXSS.hpp:1-28,
    from the words of every entry; front() of an empty vector is undefined *)
Fixpoint it_append01 (nieb : Z) (cosines : list (list (list double))) (acc : list double) : outcome (list double) :=
  match cosines with
  | [] => Ok acc
  | c :: r => _ <- throw_if (negb (nieb =? len c)) StdException ;; it_append01 nieb r (acc ++ concat c)
  end.
Definition it_generateXSS01 (cosines : list (list (list double))) : outcome (list double) :=
  match cosines with [] => UB | c :: _ => it_append01 (len c) cosines [] end.

(** generateXSS for DiscreteCosinesWithProbability, generateXSS.hpp:30-61.  [index] counts the entries already
    processed; the vector is kept as locators, counts and data. *)
Fixpoint it_append2 (size locb : Z) (cosines : list (list (list double))) (locs counts data : list double) : list double :=
  match cosines with
  | [] => locs ++ counts ++ data
  | c :: r =>
      let locator := u64 (size * 2 + len data + 1) in
      it_append2 size locb r (locs ++ [dbl (u64 (locator + (locb - 1) - 1))]) (counts ++ [dbl (len c)]) (data ++ concat c)
  end.
Definition it_generateXSS2 (locb : Z) (cosines : list (list (list double))) : list double := it_append2 (len cosines) locb cosines [] [] [].

(** LOCC(), relativeDistributionLocator(): InelasticAngularDistributionBlock.hpp:58-93; the int sum may overflow *)
Definition it_LOCC bm (o : itxe) (index : Z) : outcome Z :=
  n <- ixss bm (it_v o) index ;; if in_int (n + 1) then Ok (n + 1) else UB.
Definition it_relative bm (o : itxe) (index : Z) : outcome Z :=
  n <- it_LOCC bm o index ;; Ok (u64 (n - (it_locb o - 1))).

(** IFENG(), NC(), NIL(), NE(): InelasticAngularDistributionBlock.hpp:103-147 *)
Definition it_NIL (o : itxe) : Z := if it_ifeng o <? 2 then u64 (it_nc o - 1) else u64 (it_nc o + 1).

(** verifyIndex, src/verifyIndices.hpp:1-12; NIEB(): InelasticAngularDistributionBlock.hpp:157-170 *)
Definition it_verifyIndex (o : itxe) (incident : Z) : outcome unit := verifyIndex (u64 incident) 1 (it_ne o).
Definition it_NIEB bm (o : itxe) (index : Z) : outcome Z :=
  match it_nieb o with
  | Some n => Ok n
  | None => _ <- check bm (it_verifyIndex o index) ;; ixss_size bm (it_v o) (it_ne o + index)
  end.

(** discreteCosineData(), InelasticAngularDistributionBlock.hpp:203-209, src/verifyIndices.hpp:14-27;
    operator[] outside the vector is undefined *)
Definition it_at {A} (l : list A) (i : Z) : outcome A := if i <? 0 then UB else nth_or_UB l (Z.to_nat i).
Definition it_cosineData bm (o : itxe) (incident outgoing : Z) : outcome cosData :=
  _ <- (if debug bm then
          _ <- it_verifyIndex o incident ;;
          n <- it_NIEB bm o incident ;; verifyIndex (u64 outgoing) 1 n
        else Ok tt) ;;
  l <- it_at (it_data o) (u64 (incident - 1)) ;; it_at l (u64 (outgoing - 1)).

(** generateBlocks, src/generateBlocks.hpp:7-23: the inner and outer loops for IFENG < 2.  A number of outgoing
    energies that does not fit the loop counter (unsigned int) makes the loop endless, leaving the array. *)
Definition it_count (n : Z) : outcome nat := if n <? 2 ^ 32 then Ok (Z.to_nat n) else UB.
Fixpoint it_out01 (nc : Z) (v : view) (n : nat) (current : Z) : outcome (list cosData * Z) :=
  match n with
  | O => Ok ([], current)
  | S n =>
      let e := adv (adv current nc) 1 in
      d <- dc_make nc (sub v current e) ;;
      r <- it_out01 nc v n e ;; Ok (d :: fst r, snd r)
  end.
Fixpoint it_in01 bm (o : itxe) (n : nat) (incident current : Z) : outcome (list (list cosData)) :=
  match n with
  | O => Ok []
  | S n =>
      nieb <- (z <- it_NIEB bm o incident ;; it_count z) ;;
      r <- it_out01 (it_nc o) (it_v o) nieb current ;;
      rs <- it_in01 bm o n (incident + 1) (snd r) ;; Ok (fst r :: rs)
  end.

(** generateBlocks.hpp:24-45: the loops for IFENG = 2 *)
Fixpoint it_out2 (nc : Z) (v : view) (n : nat) (next current : Z) : outcome (list cosData * Z) :=
  match n with
  | O => Ok ([], current)
  | S m =>
      let e := match m with O => next | _ => adv (adv current nc) 3 end in
      d <- dq_make nc (sub v current e) ;;
      r <- it_out2 nc v m next e ;; Ok (d :: fst r, snd r)
  end.
Fixpoint it_in2 bm (o : itxe) (n : nat) (incident current : Z) : outcome (list (list cosData)) :=
  match n with
  | O => Ok []
  | S m =>
      locator <- it_relative bm o (incident + 1) ;;
      nieb <- (z <- it_NIEB bm o incident ;; it_count z) ;;
      next <- (match m with O => Ok (vend (it_v o)) | _ => iter bm (it_v o) locator end) ;;
      r <- it_out2 (it_nc o) (it_v o) nieb next current ;;
      rs <- it_in2 bm o m (incident + 1) (snd r) ;; Ok (fst r :: rs)
  end.
Definition it_generateBlocks bm (o : itxe) : outcome itxe :=
  n <- it_count (it_ne o) ;;
  data <- (if it_ifeng o <? 2 then it_in01 bm o n 1 (vbeg (it_v o))
           else locator <- it_relative bm o 1 ;; current <- iter bm (it_v o) locator ;; it_in2 bm o n 1 current) ;;
  Ok (Itxe (it_ifeng o) (it_nc o) (it_nieb o) (it_ne o) (it_locb o) (it_v o) data).

(** Constructor from iterators, src/ctor.hpp:130-144 with verifySize.hpp:1-16: the arguments of verifySize are
    converted to unsigned int and multiplied as such; the comparison is made in long *)
Definition it_make bm (ifeng nieb nc ne locb : Z) (v : view) : outcome itxe :=
  _ <- (if ifeng <? 2 then throw_if (s64 (vend v - vbeg v) <? u32 (ne * nieb * (1 + nc))) StdException else Ok tt) ;;
  it_generateBlocks bm (Itxe ifeng nc (if ifeng <? 2 then Some nieb else None) ne locb v []).

(** cosines.front().front().NC(), src/ctor.hpp:102, 118: front() of an empty vector is undefined *)
Definition it_front_NC (cosines : list (list cosData)) : outcome Z :=
  match cosines with (d :: _) :: _ => Ok (cos_NC d) | _ => UB end.
Definition it_contents (cosines : list (list cosData)) : outcome (list (list (list double))) :=
  mapM (fun l => mapM (fun d => xss_all (cos_v d)) l) cosines.

(** Constructors from discrete cosine data, src/ctor.hpp:6-19, 96-119; the private constructor takes unsigned int *)
Definition it_of01 bm (cosines : list (list cosData)) (skewed : bool) (locb : Z) : outcome itxe :=
  nc <- it_front_NC cosines ;;
  c0 <- nth_or_UB cosines 0 ;;
  ws <- it_contents cosines ;;
  l <- it_generateXSS01 ws ;;
  it_generateBlocks bm (Itxe (if skewed then 1 else 0) (u32 nc) (Some (u32 (len c0))) (u32 (len cosines)) locb (own l) []).
Definition it_of2 bm (cosines : list (list cosData)) (locb : Z) : outcome itxe :=
  nc <- it_front_NC cosines ;;
  ws <- it_contents cosines ;;
  it_generateBlocks bm (Itxe 2 (u32 nc) None (u32 (len cosines)) locb (own (it_generateXSS2 locb ws)) []).

(** * What the blocks show *)

(** What a user supplies for one outgoing energy *)
Inductive cos_in := InDisc (e : double) (mu : list double) | InProb (e p c : double) (mu : list double).
Definition cn_mu (i : cos_in) := match i with InDisc _ mu | InProb _ _ _ mu => mu end.
Definition cn_prob (i : cos_in) := match i with InDisc _ _ => false | InProb _ _ _ _ => true end.
Definition cn_words (i : cos_in) : list double := match i with InDisc e mu => e :: mu | InProb e p c mu => e :: p :: c :: mu end.
Definition cos_of (i : cos_in) : outcome cosData := match i with InDisc e mu => dc_of e mu | InProb e p c mu => dq_of e p c mu end.

Definition cos_shows bm (d : cosData) (i : cos_in) : Prop :=
  cos_NC d = len (cn_mu i) /\ cos_cosines bm d = Ok (cn_mu i)
  /\ match i, d with
     | InDisc e _, CDisc _ _ => cos_energy bm d = Ok e
     | InProb e p c _, CProb _ v => cos_energy bm d = Ok e /\ cos_pdf bm v = Ok p /\ cos_cdf bm v = Ok c
     | _, _ => False
     end.

Definition cos_kind (prob : bool) (nc : Z) (v : view) : cosData := if prob then CProb nc v else CDisc nc v.
Lemma cos_content bm i v : content v (cn_words i) -> cos_shows bm (cos_kind (cn_prob i) (len (cn_mu i)) v) i.
Proof.
  intros C. pose proof (content_has _ _ C) as H. destruct i as [e mu|e p c mu]; cbn [cn_prob cos_kind cn_mu cn_words] in *;
    unfold cos_shows; cbn [cos_NC cn_mu cos_cosines cos_energy cos_v]; (split; [reflexivity|]).
  - split; [apply (xssr_has bm v [e] mu []); [rewrite app_nil_r; exact H|reflexivity..]|].
    apply (xss_at bm v [] e mu); [exact H|reflexivity].
  - split; [apply (xssr_has bm v [e; p; c] mu []); [rewrite app_nil_r; exact H|reflexivity..]|].
    unfold cos_energy, cos_pdf, cos_cdf. cbn [cos_v]. split; [|split].
    + apply (xss_at bm v [] e (p :: c :: mu)); [exact H|reflexivity].
    + apply (xss_at bm v [e] p (c :: mu)); [exact H|reflexivity].
    + apply (xss_at bm v [e; p] c mu); [exact H|reflexivity].
Qed.

Lemma cos_of_ok i : len (cn_words i) < max_words -> exists v, cos_of i = Ok (cos_kind (cn_prob i) (len (cn_mu i)) v) /\ content v (cn_words i).
Proof.
  intros B. destruct i as [e mu|e p c mu]; cbn [cn_words] in B; unfold cos_of, dc_of, dq_of; cbn [cn_prob cn_mu cos_kind cn_words].
  - exists (own (e :: mu)). split; [|apply own_content; exact B].
    unfold max_words in B. rewrite u64_small by (rewrite len_cons in B; pose proof (len_nonneg mu); lia). rewrite len_cons.
    unfold throw_if. destruct (1 + len mu <? 1 + len mu) eqn:E; [lia|reflexivity].
  - exists (own (e :: p :: c :: mu)). split; [|apply own_content; exact B].
    unfold max_words in B. rewrite !len_cons in B. rewrite u64_small by (pose proof (len_nonneg mu); lia). rewrite !len_cons.
    unfold throw_if. destruct (1 + (1 + (1 + len mu)) <? 3 + len mu) eqn:E; [lia|reflexivity].
Qed.

(** What a user supplies for the block: IFENG (0 equiprobable, 1 skewed, 2 tabulated) and the cosines *)
Definition it_valid (ifeng nc : Z) (cs : list (list cos_in)) : Prop :=
  0 <= ifeng <= 2 /\ Forall (Forall (fun i => cn_prob i = (ifeng =? 2) /\ len (cn_mu i) = nc)) cs
  /\ (exists d c r, cs = (d :: c) :: r)
  /\ (ifeng < 2 -> forall c d, In c cs -> In d cs -> len c = len d).
Definition cs_words (cs : list (list cos_in)) : list (list (list double)) := map (map cn_words) cs.
Definition it_layout (ifeng locb : Z) (cs : list (list cos_in)) : list double :=
  if ifeng <? 2 then concat (concat (cs_words cs)) else it_generateXSS2 locb (cs_words cs).
Definition it_built bm ifeng locb (cs : list (list cos_in)) : outcome itxe :=
  ds <- mapM (mapM cos_of) cs ;; if ifeng <? 2 then it_of01 bm ds (ifeng =? 1) locb else it_of2 bm ds locb.
Definition first_count {A} (cs : list (list A)) : Z := match cs with c :: _ => len c | [] => 0 end.
Definition it_shows bm (ifeng nc : Z) (cs : list (list cos_in)) (o : itxe) : Prop :=
  it_ifeng o = ifeng /\ it_nc o = nc /\ it_ne o = len cs
  /\ (forall k c, nth_error cs k = Some c -> it_NIEB bm o (Z.of_nat k + 1) = Ok (len c))
  /\ (forall k c j d, nth_error cs k = Some c -> nth_error c j = Some d ->
        exists x, it_cosineData bm o (Z.of_nat k + 1) (Z.of_nat j + 1) = Ok x /\ cos_shows bm x d).

(** * Proofs *)

Definition is_chunk (prob : bool) (nc : Z) (x : cosData) (w : list double) : Prop := exists v, x = cos_kind prob nc v /\ content v w.

Lemma it_out01_ok nc v : forall ws pre post current, has v (pre ++ concat ws ++ post) -> Forall (fun w => len w = 1 + nc) ws -> 0 <= nc -> current = vbeg v + len pre ->
  exists ds, it_out01 nc v (length ws) current = Ok (ds, current + len (concat ws)) /\ Forall2 (is_chunk false nc) ds ws.
Proof.
  induction ws as [|w ws IH]; intros pre post current H F Hnc ->.
  - exists []. cbn [length it_out01 concat]. rewrite len_nil. split; [do 2 f_equal; lia|constructor].
  - inversion F as [|? ? Fw Fr]; subst. cbn [length it_out01 concat] in *. rewrite <- app_assoc in H.
    pose proof (has_bounds _ _ H) as B. repeat rewrite ?len_app in B. pose proof (len_nonneg pre). pose proof (len_nonneg (concat ws)). pose proof (len_nonneg post).
    rewrite !adv_small by lia.
    assert (C : content (sub v (vbeg v + len pre) (vbeg v + len pre + nc + 1)) w).
    { apply (sub_content v pre w (concat ws ++ post)); [exact H|reflexivity|lia]. }
    unfold dc_make. rewrite (vlen_content _ _ C). rewrite (u64_small (1 + nc)) by lia.
    unfold throw_if. destruct (len w <? 1 + nc) eqn:E; [lia|]. cbn [bind].
    destruct (IH (pre ++ w) post (vbeg v + len pre + nc + 1)) as (ds & E1 & E2); [rewrite <- app_assoc; exact H|exact Fr|exact Hnc|rewrite len_app; lia|].
    rewrite E1. cbn [bind fst snd]. eexists. split; [do 2 f_equal; rewrite len_app; lia|]. constructor; [|exact E2].
    exists (sub v (vbeg v + len pre) (vbeg v + len pre + nc + 1)). split; [reflexivity|exact C].
Qed.

Lemma it_out2_ok nc v next : forall ws pre post current, has v (pre ++ concat ws ++ post) -> Forall (fun w => len w = 3 + nc) ws -> 0 <= nc -> current = vbeg v + len pre ->
  next = current + len (concat ws) ->
  exists ds, it_out2 nc v (length ws) next current = Ok (ds, next) /\ Forall2 (is_chunk true nc) ds ws.
Proof.
  induction ws as [|w ws IH]; intros pre post current H F Hnc -> ->.
  - exists []. cbn [length it_out2 concat]. rewrite len_nil. split; [do 2 f_equal; lia|constructor].
  - inversion F as [|? ? Fw Fr]; subst. cbn [length it_out2 concat] in *. rewrite <- app_assoc in H.
    pose proof (has_bounds _ _ H) as B. repeat rewrite ?len_app in B. pose proof (len_nonneg pre). pose proof (len_nonneg (concat ws)). pose proof (len_nonneg post).
    rewrite !adv_small by lia. rewrite len_app.
    assert (E0 : match length ws with O => vbeg v + len pre + (len w + len (concat ws)) | S _ => vbeg v + len pre + nc + 3 end = vbeg v + len pre + (3 + nc)).
    { destruct ws; cbn [length concat]; [change (len (@nil double)) with 0; lia|lia]. }
    rewrite E0. clear E0.
    assert (C : content (sub v (vbeg v + len pre) (vbeg v + len pre + (3 + nc))) w).
    { apply (sub_content v pre w (concat ws ++ post)); [exact H|reflexivity|lia]. }
    unfold dq_make. rewrite (vlen_content _ _ C). rewrite (u64_small (3 + nc)) by lia.
    unfold throw_if. destruct (len w <? 3 + nc) eqn:E; [lia|]. cbn [bind].
    destruct (IH (pre ++ w) post (vbeg v + len pre + (3 + nc))) as (ds & E1 & E2); [rewrite <- app_assoc; exact H|exact Fr|exact Hnc|rewrite len_app; lia|repeat rewrite len_app; lia|].
    rewrite len_app in E1. rewrite E1. cbn [bind fst snd]. eexists. split; [reflexivity|]. constructor; [|exact E2].
    exists (sub v (vbeg v + len pre) (vbeg v + len pre + (3 + nc))). split; [reflexivity|exact C].
Qed.

Lemma it_count_len {A} (l : list A) : len l < 2 ^ 31 -> it_count (len l) = Ok (length l).
Proof. intros H. unfold it_count. destruct (len l <? 2 ^ 32) eqn:E; [unfold len; rewrite Nat2Z.id; reflexivity|lia]. Qed.

Lemma len_concat_ge {A} (l : list (list A)) : Forall (fun w => 1 <= len w) l -> len l <= len (concat l).
Proof. induction 1; cbn [concat]; [reflexivity|]. rewrite len_cons, len_app. lia. Qed.

Lemma it_in01_ok bm o nieb : it_nieb o = Some nieb -> 0 <= it_nc o -> forall wss pre post incident current, has (it_v o) (pre ++ concat (concat wss) ++ post) ->
  Forall (fun ws => len ws = nieb /\ Forall (fun w => len w = 1 + it_nc o) ws) wss -> current = vbeg (it_v o) + len pre ->
  exists dss, it_in01 bm o (length wss) incident current = Ok dss /\ Forall2 (Forall2 (is_chunk false (it_nc o))) dss wss.
Proof.
  intros N Hnc. induction wss as [|ws wss IH]; intros pre post incident current H F ->.
  - exists []. split; [reflexivity|constructor].
  - inversion F as [|? ? [Fn Fw] Fr]; subst. cbn [length it_in01 concat] in *. rewrite concat_app, <- app_assoc in H.
    unfold it_NIEB at 1. rewrite N. cbn [bind].
    pose proof (has_bounds _ _ H) as B. repeat rewrite ?len_app in B. pose proof (len_nonneg pre). pose proof (len_nonneg (concat (concat wss))). pose proof (len_nonneg post).
    assert (L : len ws <= len (concat ws)). { apply len_concat_ge. eapply Forall_impl; [|exact Fw]. cbv beta; intros; lia. }
    unfold max_words in B. rewrite it_count_len by lia. cbn [bind].
    destruct (it_out01_ok (it_nc o) (it_v o) ws pre (concat (concat wss) ++ post) _ H Fw Hnc eq_refl) as (ds & E1 & E2). rewrite E1. cbn [bind fst snd].
    destruct (IH (pre ++ concat ws) post (incident + 1) (vbeg (it_v o) + len pre + len (concat ws))) as (dss & E3 & E4);
      [rewrite <- app_assoc; exact H|exact Fr|rewrite len_app; lia|].
    rewrite E3. cbn [bind]. eexists. split; [reflexivity|]. constructor; assumption.
Qed.

(** The layout of the second form *)
Fixpoint loc2 (start : Z) (wss : list (list (list double))) : list Z :=
  match wss with [] => [] | c :: r => start :: loc2 (start + len (concat c)) r end.
Lemma len_loc2 : forall wss s, len (loc2 s wss) = len wss.
Proof. induction wss; intros; cbn [loc2]; [reflexivity|]. rewrite !len_cons, IHwss. reflexivity. Qed.

Lemma length_loc2 wss s : length (loc2 s wss) = length wss.
Proof. apply Nat2Z.inj. apply len_loc2. Qed.

Lemma it_append2_spec size locb : forall wss locs counts data, 0 <= size -> 1 <= locb -> size * 2 + len data + len (concat (concat wss)) + locb < 2 ^ 62 ->
  it_append2 size locb wss locs counts data
  = (locs ++ map dbl (loc2 (size * 2 + len data + locb - 1) wss)) ++ (counts ++ map dbl (map len wss)) ++ data ++ concat (concat wss).
Proof.
  induction wss as [|c wss IH]; intros locs counts data S1 S2 S3; cbn [it_append2 loc2 map concat].
  - rewrite !app_nil_r. reflexivity.
  - cbn [concat] in S3. rewrite concat_app, len_app in S3. pose proof (len_nonneg data). pose proof (len_nonneg (concat c)). pose proof (len_nonneg (concat (concat wss))).
    rewrite IH; [|lia|lia|rewrite len_app; lia].
    rewrite (u64_small (size * 2 + len data + 1)) by lia. rewrite u64_small by lia.
    rewrite len_app, concat_app, <- !app_assoc. cbn [app].
    replace (size * 2 + len data + 1 + (locb - 1) - 1) with (size * 2 + len data + locb - 1) by lia.
    replace (size * 2 + (len data + len (concat c)) + locb - 1) with (size * 2 + len data + locb - 1 + len (concat c)) by lia. reflexivity.
Qed.
Lemma it_generateXSS2_spec locb wss : 1 <= locb -> len wss * 2 + len (concat (concat wss)) + locb < 2 ^ 62 ->
  it_generateXSS2 locb wss = map dbl (loc2 (len wss * 2 + locb - 1) wss) ++ map dbl (map len wss) ++ concat (concat wss).
Proof.
  intros H1 H2. pose proof (len_nonneg wss). unfold it_generateXSS2. rewrite it_append2_spec; [|lia|lia|change (len (@nil double)) with 0; lia].
  cbn [app]. change (len (@nil double)) with 0. do 3 f_equal. lia.
Qed.
Lemma loc2_nth : forall wss s k, (k < length wss)%nat -> nth_error (loc2 s wss) k = Some (s + len (concat (concat (firstn k wss)))).
Proof.
  induction wss as [|c wss IH]; intros s k Hk; cbn [length] in Hk; [lia|]. destruct k; cbn [loc2 nth_error firstn concat].
  - change (len (@nil double)) with 0. f_equal. lia.
  - rewrite IH by lia. rewrite concat_app, len_app. f_equal. lia.
Qed.

Lemma len_concat2_firstn (wss : list (list (list double))) k : 0 <= len (concat (concat (firstn k wss))) <= len (concat (concat wss)).
Proof.
  split; [apply len_nonneg|]. rewrite <- (firstn_skipn k wss) at 2. rewrite !concat_app, len_app. pose proof (len_nonneg (concat (concat (skipn k wss)))). lia.
Qed.

Section Second.
  Variables (bm : build) (o : itxe) (wss : list (list (list double))).
  Let locb := it_locb o.
  Let v := it_v o.
  Hypothesis Hl : content v (it_generateXSS2 locb wss).
  Hypothesis Hlocb : 1 <= locb.
  Hypothesis Hsize : locb + len (it_generateXSS2 locb wss) < 2 ^ 31.
  Hypothesis Hb : len wss * 2 + len (concat (concat wss)) + locb < 2 ^ 62.
  Hypothesis Hne : it_ne o = len wss.
  Hypothesis Hnieb : it_nieb o = None.
  Hypothesis Hnc : 0 <= it_nc o.
  Hypothesis Hw : Forall (Forall (fun w => len w = 3 + it_nc o)) wss.
  Let spec : it_generateXSS2 locb wss = map dbl (loc2 (len wss * 2 + locb - 1) wss) ++ map dbl (map len wss) ++ concat (concat wss).
  Proof. apply it_generateXSS2_spec; assumption. Qed.
  Let size_spec : locb + (len wss * 2 + len (concat (concat wss))) < 2 ^ 31.
  Proof. pose proof Hsize as S. rewrite spec in S. repeat rewrite ?len_app, ?len_map, ?len_loc2 in S. lia. Qed.

  Lemma it2_locator k : (k < length wss)%nat ->
    it_relative bm o (Z.of_nat k + 1) = Ok (len wss * 2 + 1 + len (concat (concat (firstn k wss)))).
  Proof.
    intros Hk. pose proof (content_has _ _ Hl) as H. rewrite spec in H. pose proof (len_concat2_firstn wss k). pose proof (len_nonneg wss). pose proof size_spec.
    unfold it_relative, it_LOCC. unfold v in H. pose proof (has_bounds _ _ H) as Hb'. unfold max_words in Hb'. assert (Hk' : Z.of_nat k < len wss) by (unfold len; lia).
    repeat rewrite ?len_app, ?len_map, ?len_loc2 in Hb'. pose proof (len_nonneg (concat (concat wss))).
    rewrite (ixss_any bm _ _ k (len wss * 2 + locb - 1 + len (concat (concat (firstn k wss)))) H).
    - cbn [bind]. unfold in_int. destruct (_ && _) eqn:E; [|lia]. cbn [bind]. f_equal. fold locb. rewrite u64_small by lia. lia.
    - rewrite nth_error_app1 by (rewrite map_length; rewrite length_loc2; exact Hk).
      erewrite map_nth_error; [reflexivity|]. apply loc2_nth. exact Hk.
    - lia.
  Qed.

  Lemma it2_NIEB k c : nth_error wss k = Some c -> it_NIEB bm o (Z.of_nat k + 1) = Ok (len c).
  Proof.
    intros Hk. pose proof (content_has _ _ Hl) as H. rewrite spec in H. pose proof size_spec. pose proof (nth_error_len _ _ _ Hk) as K.
    unfold it_NIEB. rewrite Hnieb. unfold it_verifyIndex. rewrite Hne. pose proof (len_nonneg (concat (concat wss))).
    rewrite u64_small by lia. rewrite check_verifyIndex by lia. cbn [bind]. unfold ixss_size.
    assert (Lc : len c <= len (concat (concat wss))).
    { apply nth_error_In in Hk as Hin. rewrite Forall_forall in Hw. specialize (Hw _ Hin).
      pose proof (len_concat_ge c) as G. specialize (G ltac:(eapply Forall_impl; [|exact Hw]; cbv beta; intros; lia)).
      apply in_split in Hin as (x & y & ->). rewrite !concat_app. cbn [concat]. rewrite concat_app, !len_app.
      pose proof (len_nonneg (concat (concat x))). pose proof (len_nonneg (concat (concat y))). lia. }
    pose proof (len_nonneg c).
    replace (len wss + (Z.of_nat k + 1)) with (Z.of_nat (length wss + k) + 1) by (unfold len; lia).
    unfold v in H. rewrite (ixss_any bm _ _ (length wss + k) (len c) H).
    - cbn [bind]. rewrite u64_small by lia. reflexivity.
    - rewrite nth_error_app2; rewrite map_length; pose proof (length_loc2 wss (len wss * 2 + locb - 1)) as E; [|lia].
      replace (length wss + k - length (loc2 (len wss * 2 + locb - 1) wss))%nat with k by lia.
      rewrite nth_error_app1 by (rewrite !map_length; unfold len in K; lia). rewrite map_map. apply (map_nth_error (fun x => dbl (len x)) _ _ Hk).
    - lia.
  Qed.

  Lemma it_in2_ok : forall n k, (k + n = length wss)%nat ->
    exists dss, it_in2 bm o n (Z.of_nat k + 1) (vbeg v + len wss * 2 + len (concat (concat (firstn k wss)))) = Ok dss
      /\ Forall2 (Forall2 (is_chunk true (it_nc o))) dss (skipn k wss).
  Proof.
    induction n as [|n IH]; intros k Hk.
    - exists []. rewrite skipn_all2 by lia. split; [reflexivity|constructor].
    - pose proof (content_has _ _ Hl) as H. rewrite spec in H. pose proof size_spec. pose proof (len_nonneg wss).
      assert (exists c, nth_error wss k = Some c) as (c & Hc). { destruct (nth_error wss k) eqn:E; [eexists; reflexivity|]. apply nth_error_None in E. lia. }
      destruct (nth_error_split _ _ Hc) as (w1 & w2 & Ew & L1).
      assert (F1 : firstn k wss = w1). { rewrite Ew, <- L1, firstn_app, Nat.sub_diag, firstn_all, firstn_O, app_nil_r. reflexivity. }
      assert (F2 : skipn k wss = c :: w2). { rewrite Ew, <- L1, skipn_app, Nat.sub_diag, skipn_all. reflexivity. }
      assert (F3 : firstn (S k) wss = w1 ++ [c]). { rewrite Ew, <- L1. rewrite firstn_app. rewrite (firstn_all2 w1) by lia. replace (S (length w1) - length w1)%nat with 1%nat by lia. reflexivity. }
      assert (F4 : skipn (S k) wss = w2). { rewrite Ew, <- L1. replace (S (length w1)) with (length (w1 ++ [c])) by (rewrite app_length; cbn; lia).
        replace (w1 ++ c :: w2) with ((w1 ++ [c]) ++ w2) by (rewrite <- app_assoc; reflexivity). rewrite skipn_app, Nat.sub_diag, skipn_all. reflexivity. }
      assert (Hcw : Forall (fun w => len w = 3 + it_nc o) c). { rewrite Forall_forall in Hw. apply Hw. eapply nth_error_In; exact Hc. }
      assert (T : len (concat (concat wss)) = len (concat (concat w1)) + len (concat c) + len (concat (concat w2))).
      { rewrite Ew. rewrite !concat_app. cbn [concat]. rewrite concat_app, !len_app. lia. }
      pose proof (len_nonneg (concat (concat w1))). pose proof (len_nonneg (concat (concat w2))). pose proof (len_nonneg (concat c)).
      assert (Lc : len c <= len (concat c)). { apply len_concat_ge. eapply Forall_impl; [|exact Hcw]. cbv beta; intros; lia. }
      cbn [it_in2].
      assert (R : exists z, it_relative bm o (Z.of_nat k + 1 + 1) = Ok z /\ (n <> O -> z = len wss * 2 + 1 + len (concat (concat (firstn (S k) wss))))).
      { destruct n.
        - unfold it_relative, it_LOCC. replace (Z.of_nat k + 1 + 1) with (Z.of_nat (length wss) + 1) by lia. unfold v in H.
          assert (exists c0, nth_error wss 0 = Some c0) as (c0 & Hc0). { destruct wss; [destruct k; discriminate|]. eexists; reflexivity. }
          assert (Lc0 : len c0 <= len (concat (concat wss))).
          { apply nth_error_In in Hc0 as Hin. rewrite Forall_forall in Hw. specialize (Hw _ Hin).
            pose proof (len_concat_ge c0) as G. specialize (G ltac:(eapply Forall_impl; [|exact Hw]; cbv beta; intros; lia)).
            apply in_split in Hin as (x & y & E). rewrite E. rewrite !concat_app. cbn [concat]. rewrite concat_app, !len_app.
            pose proof (len_nonneg (concat (concat x))). pose proof (len_nonneg (concat (concat y))). lia. }
          pose proof (len_nonneg c0).
          rewrite (ixss_any bm _ _ (length wss) (len c0) H).
          + cbn [bind]. unfold in_int. destruct (_ && _) eqn:E; [|lia]. cbn [bind]. eexists. split; [reflexivity|]. intros []. reflexivity.
          + rewrite nth_error_app2; rewrite map_length; pose proof (length_loc2 wss (len wss * 2 + locb - 1)) as E; [|lia].
            replace (length wss - length (loc2 (len wss * 2 + locb - 1) wss))%nat with O by lia.
            rewrite nth_error_app1 by (rewrite !map_length; lia). rewrite map_map. apply (map_nth_error (fun x => dbl (len x)) _ _ Hc0).
          + lia.
        - replace (Z.of_nat k + 1 + 1) with (Z.of_nat (S k) + 1) by lia. rewrite it2_locator by lia. eexists. split; [reflexivity|]. intros _. reflexivity. }
      destruct R as (z & Ez & Hz). rewrite Ez. cbn [bind]. rewrite (it2_NIEB _ _ Hc). cbn [bind]. rewrite it_count_len by lia. cbn [bind].
      assert (N : (match n with O => Ok (vend (it_v o)) | S _ => iter bm (it_v o) z end) = Ok (vbeg v + len wss * 2 + len (concat (concat w1)) + len (concat c))).
      { pose proof Hl as [_ Hend]. rewrite spec in Hend. repeat rewrite ?len_app, ?len_map, ?len_loc2 in Hend. destruct n.
        - f_equal. fold v. assert (E2 : w2 = []). { assert (L : length wss = S (length w1 + length w2)) by (rewrite Ew, app_length; cbn; lia). destruct w2; [reflexivity|cbn in L; lia]. }
          rewrite E2 in T. cbn [concat] in T. change (len (@nil double)) with 0 in T. lia.
        - rewrite Hz by discriminate. rewrite F3, !concat_app. cbn [concat]. rewrite app_nil_r, !len_app. unfold v in H.
          rewrite (iter_has bm _ _ _ H); [|fold v; lia]. f_equal. fold v. lia. }
      rewrite N. cbn [bind]. rewrite F1.
      destruct (it_out2_ok (it_nc o) v (vbeg v + len wss * 2 + len (concat (concat w1)) + len (concat c)) c
        (map dbl (loc2 (len wss * 2 + locb - 1) wss) ++ map dbl (map len wss) ++ concat (concat w1)) (concat (concat w2)) (vbeg v + len wss * 2 + len (concat (concat w1))))
        as (ds & E1 & E2); [|exact Hcw|exact Hnc| |lia|].
      { eapply has_eq; [exact H|]. rewrite <- !app_assoc. do 2 f_equal. rewrite Ew at 1. rewrite !concat_app. cbn [concat]. rewrite concat_app. reflexivity. }
      { repeat rewrite ?len_app, ?len_map, ?len_loc2. lia. }
      fold v. rewrite E1. cbn [bind fst snd].
      destruct (IH (S k)) as (dss & E3 & E4); [lia|]. rewrite F3, F4 in *. rewrite !concat_app in E3. cbn [concat] in E3. rewrite app_nil_r, !len_app in E3.
      replace (vbeg v + len wss * 2 + (len (concat (concat w1)) + len (concat c))) with (vbeg v + len wss * 2 + len (concat (concat w1)) + len (concat c)) in E3 by lia.
      replace (Z.of_nat (S k) + 1) with (Z.of_nat k + 1 + 1) in E3 by lia. rewrite E3. cbn [bind]. eexists. split; [reflexivity|]. rewrite F2. constructor; assumption.
  Qed.
End Second.

Lemma Forall2_nth {A B} (R : A -> B -> Prop) : forall l l' k y, Forall2 R l l' -> nth_error l' k = Some y -> exists x, nth_error l k = Some x /\ R x y.
Proof.
  intros l l' k y H. revert k. induction H; intros k Hk; destruct k; try discriminate; cbn [nth_error] in *.
  - injection Hk as <-. eexists; split; [reflexivity|assumption].
  - apply IHForall2. exact Hk.
Qed.
Lemma F2_len {A B} (R : A -> B -> Prop) l l' : Forall2 R l l' -> len l = len l'.
Proof. intros H. unfold len. rewrite (Forall2_len _ _ _ H). reflexivity. Qed.
Lemma it_at_nth {A} (l : list A) k x : nth_error l k = Some x -> it_at l (Z.of_nat k) = Ok x.
Proof. intros H. unfold it_at, nth_or_UB. destruct (Z.of_nat k <? 0) eqn:E; [lia|]. rewrite Nat2Z.id, H. reflexivity. Qed.

Lemma cs_chunk_len cs ifeng nc : Forall (Forall (fun i => cn_prob i = (ifeng =? 2) /\ len (cn_mu i) = nc)) cs ->
  Forall (Forall (fun w => len w = (if ifeng =? 2 then 3 else 1) + nc)) (cs_words cs).
Proof.
  intros F. unfold cs_words. apply Forall_map. eapply Forall_impl; [|exact F]. cbv beta. intros c Fc. apply Forall_map. eapply Forall_impl; [|exact Fc].
  cbv beta. intros i [P L]. destruct i; cbn [cn_words cn_prob cn_mu] in *; rewrite <- P; rewrite !len_cons; lia.
Qed.

Lemma len_cs_words cs : len (cs_words cs) = len cs. Proof. apply len_map. Qed.

Lemma it_sizes ifeng nc cs : it_valid ifeng nc cs -> 0 <= nc /\ 1 <= first_count cs /\ 1 <= len cs
  /\ Forall (fun c => len c <= len (concat (concat (cs_words cs)))) cs
  /\ (ifeng < 2 -> Forall (fun c => len c = first_count cs) cs /\ len cs <= len (concat (concat (cs_words cs)))
       /\ len (concat (concat (cs_words cs))) = len cs * first_count cs * (1 + nc)).
Proof.
  intros (Hi & F & (d & c & r & ->) & E). pose proof (cs_chunk_len _ _ _ F) as W.
  assert (Hnc : 0 <= nc). { inversion F as [|? ? F1 _]; subst. inversion F1 as [|? ? [_ L] _]; subst. apply len_nonneg. }
  split; [exact Hnc|]. split; [cbn [first_count]; rewrite len_cons; pose proof (len_nonneg c); lia|]. split; [rewrite len_cons; pose proof (len_nonneg r); lia|].
  split.
  - rewrite Forall_forall. intros x Hx. apply in_split in Hx as (a & b & E1). rewrite E1 in W |- *. unfold cs_words in *. rewrite map_app in *. cbn [map] in *.
    apply Forall_app in W as [_ W]. inversion W as [|? ? Wx _]; subst. rewrite !concat_app. cbn [concat]. rewrite concat_app, !len_app.
    pose proof (len_concat_ge (map cn_words x)) as G. rewrite len_map in G. specialize (G ltac:(eapply Forall_impl; [|exact Wx]; cbv beta; intros; destruct (ifeng =? 2); lia)).
    pose proof (len_nonneg (concat (concat (map (map cn_words) a)))). pose proof (len_nonneg (concat (concat (map (map cn_words) b)))). lia.
  - intros Hlt. set (cs := (d :: c) :: r) in *. assert (Fe : Forall (fun x => len x = first_count cs) cs).
    { rewrite Forall_forall. intros x Hx. apply (E Hlt); [exact Hx|left; reflexivity]. }
    split; [exact Fe|]. destruct (ifeng =? 2) eqn:E2; [lia|].
    assert (Hf : 1 <= first_count cs). { subst cs. cbn [first_count]. rewrite len_cons. pose proof (len_nonneg c). lia. }
    assert (T : len (concat (concat (cs_words cs))) = len cs * first_count cs * (1 + nc)).
    { clear E Hlt. generalize (first_count cs) Fe. clear Fe Hf F. revert W. generalize cs. clear. induction cs as [|x xs IH]; intros W n Fe; [reflexivity|].
      unfold cs_words in *. cbn [map concat] in *. inversion W; subst. inversion Fe; subst. rewrite concat_app, len_app, len_cons. rewrite (IH H2 _ H4).
      rewrite (len_concat (1 + nc)) by assumption. rewrite len_map. nia. }
    split; [|exact T]. rewrite T. pose proof (len_nonneg cs). nia.
Qed.

Lemma it_blocks_ok bm o ifeng nc locb cs : it_valid ifeng nc cs -> it_ifeng o = ifeng -> it_nc o = nc -> it_ne o = len cs -> it_locb o = locb ->
  it_nieb o = (if ifeng <? 2 then Some (first_count cs) else None) ->
  content (it_v o) (it_layout ifeng locb cs) -> 1 <= locb -> locb + 2 * len cs + len (concat (concat (cs_words cs))) < 2 ^ 31 ->
  exists o', it_generateBlocks bm o = Ok o' /\ it_v o' = it_v o /\ it_shows bm ifeng nc cs o'.
Proof.
  intros V Ei En Ee El Eb C Hl Hs. pose proof (it_sizes _ _ _ V) as (Hnc & Hf & Hne & Hc & H01). destruct V as (Hi & F & Hcs & _).
  pose proof (cs_chunk_len _ _ _ F) as W. pose proof (len_nonneg (concat (concat (cs_words cs)))) as Ht.
  assert (X : exists dss, (if it_ifeng o <? 2 then it_in01 bm o (length cs) 1 (vbeg (it_v o))
           else locator <- it_relative bm o 1 ;; current <- iter bm (it_v o) locator ;; it_in2 bm o (length cs) 1 current) = Ok dss
           /\ Forall2 (Forall2 (is_chunk (ifeng =? 2) nc)) dss (cs_words cs)
           /\ (forall k c, nth_error cs k = Some c -> it_NIEB bm o (Z.of_nat k + 1) = Ok (len c))).
  { rewrite Ei. unfold it_layout in C. destruct (ifeng <? 2) eqn:E2.
    - destruct (H01 ltac:(lia)) as (Fe & _ & _). replace (ifeng =? 2) with false in * by lia.
      destruct (it_in01_ok bm o (first_count cs) Eb ltac:(lia) (cs_words cs) [] [] 1 (vbeg (it_v o))) as (dss & E1 & E2').
      + rewrite app_nil_r. cbn [app]. apply content_has. exact C.
      + rewrite En. rewrite Forall_forall in W |- *. intros ws Hws. split; [|apply W; exact Hws]. unfold cs_words in Hws. apply in_map_iff in Hws as (c & <- & Hin).
        rewrite len_map. rewrite Forall_forall in Fe. apply Fe. exact Hin.
      + change (len (@nil double)) with 0. lia.
      + unfold cs_words in E1 at 1. rewrite map_length in E1. rewrite E1. rewrite En in E2'. exists dss. split; [reflexivity|]. split; [exact E2'|].
        intros k c Hk. unfold it_NIEB. rewrite Eb. f_equal. symmetry. rewrite Forall_forall in Fe. apply Fe. eapply nth_error_In; exact Hk.
    - replace (ifeng =? 2) with true in * by lia. rewrite <- El in C.
      assert (B1 : len (cs_words cs) * 2 + len (concat (concat (cs_words cs))) + it_locb o < 2 ^ 62) by (rewrite len_cs_words; lia).
      assert (S1 : it_locb o + len (it_generateXSS2 (it_locb o) (cs_words cs)) < 2 ^ 31).
      { rewrite it_generateXSS2_spec by lia. repeat rewrite ?len_app, ?len_map, ?len_loc2. rewrite len_cs_words. lia. }
      assert (Ee' : it_ne o = len (cs_words cs)) by (rewrite len_cs_words; exact Ee).
      assert (W' : Forall (Forall (fun w => len w = 3 + it_nc o)) (cs_words cs)) by (rewrite En; exact W).
      pose proof (it2_locator bm o (cs_words cs) C ltac:(lia) S1 B1 0) as Lo. specialize (Lo ltac:(unfold cs_words; rewrite map_length; unfold len in Hne; lia)).
      cbn [Z.of_nat Z.add firstn concat] in Lo. change (len (@nil double)) with 0 in Lo. rewrite Lo. cbn [bind].
      rewrite (iter_has bm _ _ _ (content_has _ _ C)).
      2:{ pose proof C as [_ Hend]. rewrite it_generateXSS2_spec in Hend by lia. repeat rewrite ?len_app, ?len_map, ?len_loc2 in Hend. rewrite len_cs_words in *. lia. }
      cbn [bind].
      destruct (it_in2_ok bm o (cs_words cs) C ltac:(lia) S1 B1 Ee' Eb ltac:(lia) W' (length (cs_words cs)) 0 eq_refl) as (dss & E1 & E2').
      cbn [Z.of_nat Z.add firstn concat] in E1. change (len (@nil double)) with 0 in E1.
      replace (vbeg (it_v o) + (len (cs_words cs) * 2 + 1 + 0) - 1) with (vbeg (it_v o) + len (cs_words cs) * 2 + 0) by lia.
      unfold cs_words at 1 in E1. rewrite map_length in E1. rewrite E1. rewrite En in E2'. exists dss. split; [reflexivity|]. split; [exact E2'|].
      intros k c Hk. rewrite (it2_NIEB bm o (cs_words cs) C ltac:(lia) S1 B1 Ee' Eb ltac:(lia) W' k (map cn_words c)); [rewrite len_map; reflexivity|].
      apply (map_nth_error (map cn_words)). exact Hk. }
  destruct X as (dss & E1 & E2 & E3). unfold it_generateBlocks. rewrite Ee, it_count_len by lia. cbn [bind]. rewrite E1. cbn [bind].
  eexists. split; [reflexivity|]. cbn [it_v]. split; [reflexivity|]. unfold it_shows. cbn [it_ifeng it_nc it_ne].
  split; [exact Ei|]. split; [exact En|]. split; [reflexivity|]. split.
  - intros k c Hk. rewrite <- (E3 k c Hk). unfold it_NIEB, it_verifyIndex. cbn [it_nieb it_ne it_v]. rewrite Ee. reflexivity.
  - intros k c j d Hk Hj. unfold it_cosineData. cbn [it_data].
    pose proof (nth_error_len _ _ _ Hk) as Lk. pose proof (nth_error_len _ _ _ Hj) as Lj.
    assert (Lc : len c <= len (concat (concat (cs_words cs)))). { rewrite Forall_forall in Hc. apply Hc. eapply nth_error_In; exact Hk. }
    replace (if debug bm then _ else Ok tt) with (@Ok unit tt).
    2:{ destruct (debug bm) eqn:Db; [|reflexivity]. unfold it_verifyIndex at 1. cbn [it_ne]. rewrite u64_small by lia.
        unfold verifyIndex at 1, throw_if. destruct (_ || _) eqn:O1; [lia|]. cbn [bind].
        assert (N : it_NIEB bm (Itxe (it_ifeng o) (it_nc o) (it_nieb o) (len cs) (it_locb o) (it_v o) dss) (Z.of_nat k + 1) = Ok (len c)).
        { rewrite <- (E3 k c Hk). unfold it_NIEB, it_verifyIndex. cbn [it_nieb it_ne it_v]. rewrite Ee. reflexivity. }
        rewrite N. cbn [bind]. rewrite u64_small by lia. unfold verifyIndex, throw_if. match goal with |- context [if ?b then _ else _] => replace b with false by lia end; reflexivity. }
    cbn [bind]. rewrite !u64_small by lia. replace (Z.of_nat k + 1 - 1) with (Z.of_nat k) by lia. replace (Z.of_nat j + 1 - 1) with (Z.of_nat j) by lia.
    destruct (Forall2_nth _ _ _ k (map cn_words c) E2) as (ds & D1 & D2); [apply (map_nth_error (map cn_words)); exact Hk|].
    destruct (Forall2_nth _ _ _ j (cn_words d) D2) as (x & X1 & v & Xe & Xc); [apply (map_nth_error cn_words); exact Hj|].
    rewrite (it_at_nth _ _ _ D1). cbn [bind]. rewrite (it_at_nth _ _ _ X1). exists x. split; [reflexivity|]. subst x.
    assert (P : cn_prob d = (ifeng =? 2) /\ len (cn_mu d) = nc).
    { rewrite Forall_forall in F. specialize (F c ltac:(eapply nth_error_In; exact Hk)). rewrite Forall_forall in F. apply F. eapply nth_error_In; exact Hj. }
    destruct P as [<- <-]. apply cos_content. exact Xc.
Qed.

Lemma it_layout_len ifeng nc locb cs : it_valid ifeng nc cs -> 1 <= locb -> locb + 2 * len cs + len (concat (concat (cs_words cs))) < 2 ^ 31 ->
  len (it_layout ifeng locb cs) = (if ifeng <? 2 then 0 else 2 * len cs) + len (concat (concat (cs_words cs))).
Proof.
  intros V H1 H2. unfold it_layout. destruct (ifeng <? 2); [lia|]. pose proof (len_nonneg cs). rewrite it_generateXSS2_spec by (rewrite ?len_cs_words; lia).
  repeat rewrite ?len_app, ?len_map, ?len_loc2. rewrite len_cs_words. lia.
Qed.

Lemma it_readable bm ifeng nc locb cs : it_valid ifeng nc cs -> 1 <= locb -> locb + 2 * len cs + len (concat (concat (cs_words cs))) < 2 ^ 31 ->
  readable (it_make bm ifeng (if ifeng <? 2 then first_count cs else 0) nc (len cs) locb) (it_layout ifeng locb cs) (it_shows bm ifeng nc cs).
Proof.
  intros V H1 H2 v C. unfold it_make. pose proof (it_sizes _ _ _ V) as (Hnc & Hf & Hne & Hc & H01).
  replace (if ifeng <? 2 then throw_if _ StdException else Ok tt) with (@Ok unit tt).
  2:{ destruct (ifeng <? 2) eqn:E; [|reflexivity]. destruct (H01 ltac:(lia)) as (_ & _ & T). pose proof C as [_ Hend]. pose proof (it_layout_len _ _ _ _ V H1 H2) as L. rewrite E in L.
      rewrite Hend. replace (vbeg v + len (it_layout ifeng locb cs) - vbeg v) with (len (it_layout ifeng locb cs)) by lia.
      pose proof (len_nonneg cs). pose proof (len_nonneg (concat (concat (cs_words cs)))).
      rewrite L. rewrite T in *. rewrite u32_small by lia. rewrite s64_small by lia. unfold throw_if. replace (_ <? _) with false by lia. reflexivity. }
  cbn [bind].
  destruct (it_blocks_ok bm (Itxe ifeng nc (if ifeng <? 2 then Some (if ifeng <? 2 then first_count cs else 0) else None) (len cs) locb v []) ifeng nc locb cs V eq_refl eq_refl eq_refl eq_refl)
    as (o & E & _ & S); [cbn [it_nieb]; destruct (ifeng <? 2); reflexivity|exact C|exact H1|exact H2|].
  rewrite E. exists o. split; [reflexivity|exact S].
Qed.

Lemma cos_all cs : Forall (fun i => len (cn_words i) < max_words) cs ->
  exists ds, mapM cos_of cs = Ok ds /\ Forall2 (fun d i => is_chunk (cn_prob i) (len (cn_mu i)) d (cn_words i)) ds cs.
Proof.
  induction 1 as [|i cs B F IH]; cbn [mapM]; [exists []; split; [reflexivity|constructor]|].
  destruct (cos_of_ok i B) as (v & E & C). rewrite E. cbn [bind]. destruct IH as (ds & E2 & F2). rewrite E2. cbn [bind].
  eexists. split; [reflexivity|]. constructor; [exists v; split; [reflexivity|exact C]|exact F2].
Qed.
Lemma cos_all2 cs : Forall (Forall (fun i => len (cn_words i) < max_words)) cs ->
  exists dss, mapM (mapM cos_of) cs = Ok dss /\ Forall2 (Forall2 (fun d i => is_chunk (cn_prob i) (len (cn_mu i)) d (cn_words i))) dss cs.
Proof.
  induction 1 as [|c cs B F IH]; cbn [mapM]; [exists []; split; [reflexivity|constructor]|].
  destruct (cos_all c B) as (ds & E & C). rewrite E. cbn [bind]. destruct IH as (dss & E2 & F2). rewrite E2. cbn [bind].
  eexists. split; [reflexivity|]. constructor; assumption.
Qed.
Lemma cos_contents dss cs : Forall2 (Forall2 (fun d i => is_chunk (cn_prob i) (len (cn_mu i)) d (cn_words i))) dss cs -> it_contents dss = Ok (cs_words cs).
Proof.
  unfold it_contents, cs_words. induction 1 as [|ds c dss cs H H2 IH]; cbn [mapM map]; [reflexivity|].
  assert (E : mapM (fun d => xss_all (cos_v d)) ds = Ok (map cn_words c)).
  { clear - H. induction H as [|d i ds c (v & -> & C) H IH]; cbn [mapM map]; [reflexivity|].
    replace (cos_v (cos_kind _ _ v)) with v by (destruct (cn_prob i); reflexivity). rewrite (xss_all_content _ _ C). cbn [bind]. rewrite IH. reflexivity. }
  rewrite E. cbn [bind]. rewrite IH. reflexivity.
Qed.
Lemma it_append01_ok n : forall wss acc, Forall (fun ws => len ws = n) wss -> it_append01 n wss acc = Ok (acc ++ concat (concat wss)).
Proof.
  induction wss as [|ws wss IH]; intros acc F; cbn [it_append01 concat]; [rewrite app_nil_r; reflexivity|].
  inversion F as [|? ? Fw Fr]; subst. rewrite Z.eqb_refl. cbn [negb throw_if bind]. rewrite IH by assumption. rewrite concat_app, <- app_assoc. reflexivity.
Qed.
Lemma it_append01_ragged n : forall wss acc, ~ Forall (fun ws => len ws = n) wss -> it_append01 n wss acc = Throw StdException.
Proof.
  induction wss as [|ws wss IH]; intros acc F; cbn [it_append01]; [exfalso; apply F; constructor|].
  destruct (Z.eqb_spec n (len ws)) as [E|E]; cbn [negb throw_if bind]; [|reflexivity]. apply IH. intros G. apply F. constructor; [symmetry; exact E|exact G].
Qed.

Lemma it_supplies bm ifeng nc locb cs : it_valid ifeng nc cs -> 1 <= locb -> locb + 2 * len cs + len (concat (concat (cs_words cs))) < 2 ^ 31 ->
  supplies (it_built bm ifeng locb cs) it_v (it_make bm ifeng (if ifeng <? 2 then first_count cs else 0) nc (len cs) locb) (it_layout ifeng locb cs) (it_shows bm ifeng nc cs).
Proof.
  intros V H1 H2. split; [|apply it_readable; assumption]. pose proof (it_sizes _ _ _ V) as (Hnc & Hf & Hne & Hc & H01). pose proof V as (Hi & F & (d0 & c0 & r & Ecs) & _).
  pose proof (it_layout_len _ _ _ _ V H1 H2) as L.
  assert (Bw : Forall (Forall (fun i => len (cn_words i) < max_words)) cs).
  { rewrite Forall_forall. intros c Hin. rewrite Forall_forall. intros i Hi'. apply in_split in Hin as (a & b & E1). apply in_split in Hi' as (a' & b' & E2).
    rewrite E1, E2 in H2. unfold cs_words in H2. rewrite map_app in H2. cbn [map] in H2. rewrite !concat_app in H2. cbn [concat] in H2. rewrite map_app in H2. cbn [map] in H2.
    rewrite !concat_app in H2. cbn [concat] in H2. rewrite !len_app in H2. nonneg. unfold max_words. lia. }
  destruct (cos_all2 cs Bw) as (dss & Ed & Fd). unfold it_built. rewrite Ed. cbn [bind].
  pose proof (cos_contents _ _ Fd) as Ec.
  assert (Hfront : it_front_NC dss = Ok nc /\ len dss = len cs /\ exists ds0, nth_error dss 0 = Some ds0 /\ len ds0 = first_count cs).
  { rewrite Ecs in Fd. inversion Fd as [|ds0 ? dss' ? Fd0 Fdr E1]; subst. inversion Fd0 as [|x ? ds' ? (v & -> & C) Fd0r]; subst.
    split; [|split].
    - cbn [it_front_NC]. inversion F as [|? ? F1 _]; subst. inversion F1 as [|? ? [_ Ln] _]; subst. destruct (cn_prob d0); reflexivity.
    - exact (F2_len _ _ _ Fd).
    - eexists. split; [reflexivity|]. cbn [first_count]. exact (F2_len _ _ _ Fd0). }
  destruct Hfront as (En & Ll & ds0 & Eds & Lds). pose proof (len_nonneg (concat (concat (cs_words cs)))) as Ht.
  assert (Bn : nc < 2 ^ 31).
  { rewrite Ecs in F, Bw. inversion F as [|? ? F1 _]; subst. inversion F1 as [|? ? [_ Ln] _]; subst. inversion Bw as [|? ? B1 _]; subst. inversion B1 as [|? ? B2 _]; subst.
    clear - B2. unfold max_words in B2. destruct d0; cbn [cn_words cn_mu] in *; rewrite ?len_cons in *; lia. }
  assert (Bf : first_count cs < 2 ^ 31). { rewrite Ecs in *. inversion Hc; subst. cbn [first_count] in *. lia. }
  assert (Bl : len (it_layout ifeng locb cs) < max_words). { rewrite L. pose proof (len_nonneg cs). unfold max_words. destruct (ifeng <? 2); lia. }
  destruct (ifeng <? 2) eqn:E2.
  - destruct (H01 ltac:(lia)) as (Fe & _ & _). unfold it_of01. rewrite En. cbn [bind]. unfold nth_or_UB. rewrite Eds. cbn [bind]. rewrite Ec. cbn [bind].
    assert (Eg : it_generateXSS01 (cs_words cs) = Ok (it_layout ifeng locb cs)).
    { unfold it_layout. rewrite E2. unfold it_generateXSS01. destruct (cs_words cs) as [|w0 ws0] eqn:Ew; [rewrite Ecs in Ew; discriminate|].
      rewrite it_append01_ok; [reflexivity|]. rewrite <- Ew. unfold cs_words. apply Forall_map. eapply Forall_impl; [|exact Fe]. cbv beta. intros c Hcl. rewrite len_map.
      rewrite Ecs in Ew, Hcl. unfold cs_words in Ew. cbn [map] in Ew. injection Ew as Ew _. rewrite <- Ew. cbn [first_count] in Hcl. rewrite Hcl. rewrite !len_cons, len_map. reflexivity. }
    rewrite Eg. cbn [bind]. rewrite Lds, Ll. rewrite (u32_small nc), (u32_small (first_count cs)), (u32_small (len cs)) by lia.
    destruct (it_blocks_ok bm (Itxe (if ifeng =? 1 then 1 else 0) nc (Some (first_count cs)) (len cs) locb (own (it_layout ifeng locb cs)) []) ifeng nc locb cs V)
      as (o & E & Ev & S); cbn [it_ifeng it_nc it_ne it_locb it_nieb it_v]; try reflexivity; try assumption.
    + destruct (ifeng =? 1) eqn:E1; lia.
    + rewrite E2. reflexivity.
    + apply own_content. exact Bl.
    + exists o. split; [exact E|]. split; [rewrite Ev; apply own_content; exact Bl|exact S].
  - unfold it_of2. rewrite En. cbn [bind]. rewrite Ec. cbn [bind]. rewrite Ll. rewrite (u32_small nc), (u32_small (len cs)) by lia.
    assert (Ei : ifeng = 2) by lia. clear Hi. subst ifeng.
    assert (Ey : it_generateXSS2 locb (cs_words cs) = it_layout 2 locb cs) by reflexivity. rewrite Ey.
    destruct (it_blocks_ok bm (Itxe 2 nc None (len cs) locb (own (it_layout 2 locb cs)) []) 2 nc locb cs V)
      as (o & E & Ev & S); cbn [it_ifeng it_nc it_ne it_locb it_nieb it_v]; try reflexivity; try assumption.
    + apply own_content. exact Bl.
    + exists o. split; [exact E|]. split; [rewrite Ev; apply own_content; exact Bl|exact S].
Qed.
