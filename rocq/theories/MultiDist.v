(** MultiDistributionData (several laws for one reaction) and the alternatives
    of EnergyDistributionData. *)
From Coq Require Import ZArith Bool List Lia Permutation Sorted.
From Coq Require Import ZifyBool ZifyNat.
From Verif Require Export EnergyDist.
Import ListNotations.
Open Scope Z_scope.

(** * Code *)

(** Conversion of an int to the underlying type (short) of EnergyDistributionType,
    src/ACEtk/EnergyDistributionType.hpp:11 *)
Definition s16 (z : Z) : Z := (z + 2 ^ 15) mod 2 ^ 16 - 2 ^ 15.
(** static_cast< unsigned int >( std::round( x ) ) *)
Definition round_to_u32 (x : double) : outcome Z :=
  match sf_round x with
  | Some z => if (0 <=? z) && (z <? 2 ^ 32) then Ok z else UB
  | None => UB
  end.
(** static_cast< EnergyDistributionType >( std::round( x ) ) *)
Definition round_to_law (x : double) : outcome Z :=
  match sf_round x with
  | Some z => if (- 2 ^ 15 <=? z) && (z <? 2 ^ 15) then Ok z else UB
  | None => UB
  end.

(** src/ACEtk/continuous/MultiDistributionData.hpp:62-65; a DistributionProbability
    is a TabulatedData (DistributionProbability.hpp:17) *)
Record multi := MultiD {
  mu_v : view; mu_locb : Z; mu_probs : list tabulatedData; mu_dists : list ed_obj }.

(** The words of a distribution at [idat]: only the distributions with laws 4 and 44
    are remade, src/ACEtk/continuous/MultiDistributionData/src/generateXSS.hpp:29-63.
    idat goes through the double xss[ offset + 2 ]. *)
Definition mu_words bm (o : ed_obj) (idat : Z) : outcome (list double) :=
  match o with
  | OOutgoing d | OKalbach d => idat <- trunc_to_size (dbl idat) ;; og_remake bm d idat
  | _ => xss_all (ed_view o)
  end.

(** The loop of generateXSS, MultiDistributionData/src/generateXSS.hpp:18-68; [size]
    is xss.size() at the start of an iteration.  The words set afterwards in place
    (lnw, idat) are written directly. *)
Fixpoint mu_append bm (locb : Z) (ps : list (list double)) (ds : list ed_obj) (size : Z) : outcome (list double) :=
  match ps, ds with
  | p :: ps, o :: ds =>
      let idat := u64 (size + 3 + len p + locb) in
      w <- mu_words bm o idat ;;
      let size := size + 3 + len p + len w in
      r <- mu_append bm locb ps ds size ;;
      Ok (dbl (match ps with [] => 0 | _ => u64 (size + locb) end)
          :: dbl (ed_LAW o) :: dbl idat :: p ++ w ++ r)
  | _, _ => Ok []
  end.

(** MultiDistributionData/src/generateXSS.hpp:1-71 *)
Definition mu_generateXSS bm (locb : Z) (ps : list (list double)) (ds : list ed_obj) : outcome (list double) :=
  _ <- throw_if (negb (len ds =? len ps)) StdException ;; mu_append bm locb ps ds 0.

(** The switch of MultiDistributionData/src/generateBlocks.hpp:27-111: as [ed_read],
    but the case of law 67 has no break and goes on with law 1. *)
Definition mu_read bm (law idat : Z) (emin emax : double) (v : view) : outcome (list ed_obj) :=
  o <- ed_read bm law idat emin emax v ;;
  if law =? 67 then o' <- ed_read bm 1 idat emin emax v ;; Ok [o; o'] else Ok [o].

(** The do-while loop of MultiDistributionData/src/generateBlocks.hpp:8-115.  Every
    iteration reads the word at its locator, and reads outside the vector are undefined: after
    more iterations than the vector has words a locator has come back, and the loop does not
    end (modelled as UB, [fuel]). *)
Fixpoint mu_loop bm (locb : Z) (v : view) (fuel : nat) (locator : Z)
  : outcome (list (tabulatedData * list ed_obj)) :=
  match fuel with
  | O => UB
  | S fuel =>
      lnw <- ixss_size bm v locator ;;
      law <- (n <- ixss bm v (locator + 1) ;; Ok (s16 n)) ;;
      idat <- ixss_size bm v (locator + 2) ;;
      let pbegin := adv (vbeg v) locator + 3 - 1 in
      let dbegin := adv (adv (vbeg v) idat) (- (locb - 1)) - 1 in
      let end_ := if lnw =? 0 then vend v else adv (adv (vbeg v) lnw) (- (locb - 1)) - 1 in
      p <- td_make bm (sub v pbegin dbegin) ;;
      emin <- (e <- td_x bm p ;; front e) ;;
      emax <- (e <- td_x bm p ;; back e) ;;
      d <- mu_read bm law idat emin emax (sub v dbegin end_) ;;
      rest <- (if lnw =? 0 then Ok [] else mu_loop bm locb v fuel (u64 (lnw - (locb - 1)))) ;;
      Ok ((p, d) :: rest)
  end.

(** MultiDistributionData( locb, begin, end ), ctor.hpp:83-88 *)
Definition mu_make bm (locb : Z) (v : view) : outcome multi :=
  rs <- mu_loop bm locb v (S (length (buf v))) 1 ;;
  Ok (MultiD v locb (map fst rs) (concat (map snd rs))).

(** MultiDistributionData( probabilities, distributions, locb ), ctor.hpp:64-74 *)
Definition mu_of bm (ps : list tabulatedData) (ds : list ed_obj) (locb : Z) : outcome multi :=
  ls <- mapM (fun p => xss_all (td_v p)) ps ;;
  l <- mu_generateXSS bm locb ls ds ;; mu_make bm locb (own l).

(** MultiDistributionData.hpp:96-147, verifyDistributionIndex.hpp:1-12 *)
Definition mu_numberDistributions (m : multi) : Z := len (mu_dists m).
Definition mu_probability bm (m : multi) (index : Z) : outcome tabulatedData :=
  _ <- check bm (verifyIndex (u64 index) 1 (mu_numberDistributions m)) ;; at_ (mu_probs m) index.
Definition mu_distribution bm (m : multi) (index : Z) : outcome ed_obj :=
  _ <- check bm (verifyIndex (u64 index) 1 (mu_numberDistributions m)) ;; at_ (mu_dists m) index.

(** EnergyDistributionData, src/ACEtk/continuous/EnergyDistributionBlock.hpp:33-48 *)
Inductive en_obj := Single (o : ed_obj) | Multi (m : multi) | Undefined.

(** The words a block gets for a distribution at [locator]:
    src/ACEtk/continuous/EnergyDistributionBlock/src/generateXSS.hpp:44-151,
    SecondaryParticleEnergyDistributionBlock/src/generateXSS.hpp:13-120 *)
Definition en_words bm (o : en_obj) (locator : Z) : outcome (list double) :=
  match o with
  | Multi m => t <- mu_of bm (mu_probs m) (mu_dists m) locator ;; xss_all (mu_v t)
  | Undefined => Ok []
  | Single o =>
      let idat := u64 (locator + 3 + 1 + 5) in
      emin <- ed_emin bm o ;; emax <- ed_emax bm o ;;
      w <- ed_words bm o idat ;;
      Ok ([dbl 0; dbl (ed_LAW o); dbl idat; dbl 0; dbl 2; emin; emax; dbl 1; dbl 1] ++ w)
  end.

(** generateData after the test on the locator:
    EnergyDistributionBlock/src/generateBlocks.hpp:1-84,
    SecondaryParticleEnergyDistributionBlock/src/generateData.hpp:11-91 *)
Definition en_read bm (locator : Z) (v : view) : outcome en_obj :=
  let left := vbeg v in
  lnw <- (x <- deref (buf v) left ;; round_to_u32 x) ;;
  if lnw =? 0 then
    law <- (x <- deref (buf v) (left + 1) ;; round_to_law x) ;;
    idat <- (x <- deref (buf v) (left + 2) ;; round_to_size x) ;;
    nr <- (x <- deref (buf v) (left + 3) ;; round_to_size x) ;;
    ne <- (x <- deref (buf v) (adv (left + 3) (2 * nr) + 1) ;; round_to_size x) ;;
    emin <- deref (buf v) (adv (left + 3) (2 * nr) + 1 + 1) ;;
    emax <- deref (buf v) (adv (adv (left + 3) (2 * nr) + 1) ne) ;;
    let start := adv left (idat - locator) in
    o <- ed_read bm law idat emin emax (sub v start (vend v)) ;; Ok (Single o)
  else m <- mu_make bm locator v ;; Ok (Multi m).

(** * Specification *)

(** A probability: interpolation regions, energies and probabilities. *)
Record pr_in := PrIn { pr_nbt : list Z; pr_int : list Z; pr_x : list double; pr_y : list double }.

Inductive en_in :=
| ISingle (i : ed_in)
| IMulti (xs : list (pr_in * ed_in)) (locb : Z).

(** Construction by the user. *)
Definition pr_of bm (p : pr_in) : outcome tabulatedData := td_of bm (pr_nbt p) (pr_int p) (pr_x p) (pr_y p).
Definition en_of bm srt (e : en_in) : outcome en_obj :=
  match e with
  | ISingle i => o <- ed_of bm srt i ;; Ok (Single o)
  | IMulti xs locb =>
      ps <- mapM (fun x => pr_of bm (fst x)) xs ;;
      ds <- mapM (fun x => ed_of bm srt (snd x)) xs ;;
      m <- mu_of bm ps ds locb ;; Ok (Multi m)
  end.

Definition is61 (i : ed_in) : Prop := match i with IEnergyAngle _ _ _ _ => True | _ => False end.
Definition is67 (i : ed_in) : Prop := match i with IAngleEnergy _ _ _ _ => True | _ => False end.

(** A probability accepted by its constructor, with at least one energy. *)
Definition pr_words (p : pr_in) : outcome (list double) := td_generateXSS (pr_nbt p) (pr_int p) (pr_x p) (pr_y p).
Definition pr_valid (p : pr_in) : Prop := pr_x p <> [] /\ exists l, pr_words p = Ok l /\ len l < 2 ^ 31.

(** A law of a multi-law distribution: neither 61 nor 67, and energy limits given by
    the user are those of the probability. *)
Definition mu_part srt (x : pr_in * ed_in) : Prop :=
  pr_valid (fst x) /\ ed_valid srt (snd x) /\ ~ is61 (snd x) /\ ~ is67 (snd x)
  /\ limits_ok (snd x) (hd (dbl 0) (pr_x (fst x))) (last (pr_x (fst x)) (dbl 0)).

Definition pr_shows bm (p : tabulatedData) (x : pr_in) : Prop :=
  td_shows bm p (pr_nbt x) (pr_int x) (pr_x x) (pr_y x).

(** What a user sees of a distribution of a block. *)
Definition en_shows bm (o : en_obj) (e : en_in) : Prop :=
  match e, o with
  | ISingle i, Single o => exists b l, ed_shows bm b l o i
  | IMulti xs _, Multi m =>
      mu_numberDistributions m = len xs
      /\ forall k x, nth_error xs k = Some x -> exists p d,
           mu_probability bm m (Z.of_nat k + 1) = Ok p /\ pr_shows bm p (fst x)
           /\ mu_distribution bm m (Z.of_nat k + 1) = Ok d /\ exists b l, ed_shows bm b l d (snd x)
  | _, _ => False
  end.

(** * Lemmas *)

Notation mu_entry := (Z * list double * (Z -> list double))%type.
Fixpoint mu_bodies (b : Z) (es : list mu_entry) : list double :=
  match es with
  | [] => []
  | (law, p, f) :: r =>
      let idat := b + 3 + len p in
      let next := idat + len (f idat) in
      (dbl (match r with [] => 0 | _ => next end) :: dbl law :: dbl idat :: p ++ f idat) ++ mu_bodies next r
  end.
Definition e_law (e : mu_entry) : Z := fst (fst e).
Definition e_p (e : mu_entry) : list double := snd (fst e).
Definition e_f (e : mu_entry) : Z -> list double := snd e.

Lemma len_mu_bodies b b' es : Forall (fun e => word_fun (e_f e)) es -> len (mu_bodies b es) = len (mu_bodies b' es).
Proof.
  intros H. revert b b'. induction H as [|[[law p] f] es Hf _ IH]; intros b b'; cbn [mu_bodies]; [reflexivity|].
  repeat rewrite ?len_app, ?len_cons. destruct Hf as [Hf _]. cbn [e_f snd] in Hf.
  rewrite (Hf (b + 3 + len p) (b' + 3 + len p)). rewrite (IH _ (b' + 3 + len p + len (f (b' + 3 + len p)))). reflexivity.
Qed.

Definition mu_dist_holds bm (e : mu_entry) (o : ed_obj) : Prop :=
  ed_LAW o = e_law e /\ forall b, fits (e_f e) b -> mu_words bm o b = Ok (e_f e b).

Lemma mu_append_ok bm locb es ps ds size :
  Forall (fun e => word_fun (e_f e)) es ->
  ps = map e_p es -> Forall2 (mu_dist_holds bm) es ds -> 1 <= locb -> 0 <= size ->
  locb + size + len (mu_bodies (locb + size) es) <= 2 ^ 31 ->
  mu_append bm locb ps ds size = Ok (mu_bodies (locb + size) es).
Proof.
  intros Hw -> HF Hlocb. revert size Hw. induction HF as [|[[law p] f] o es ds Ho HF IH]; intros size Hw Hsize HL; cbn [map mu_append mu_bodies e_p fst snd]; [reflexivity|].
  inversion Hw as [|? ? W1 W2]; subst. cbn [mu_bodies] in HL. repeat rewrite ?len_app, ?len_cons in HL.
  cbn [e_f snd] in W1. destruct Ho as [HLaw Hwords]. cbn [e_law e_f fst snd] in HLaw, Hwords.
  set (idat := locb + size + 3 + len p) in *. set (next := idat + len (f idat)) in *.
  pose proof (len_nonneg p). pose proof (len_nonneg (f idat)). pose proof (len_nonneg (mu_bodies next es)).
  replace (size + 3 + len p + locb) with idat by (unfold idat; lia).
  rewrite u64_small by (unfold idat; lia).
  rewrite Hwords by (unfold fits, idat in *; lia). cbn [bind].
  assert (En : locb + (size + 3 + len p + len (f idat)) = next) by (unfold next, idat; lia).
  specialize (IH (size + 3 + len p + len (f idat)) W2 ltac:(lia)). rewrite En in IH. rewrite IH by (unfold next, idat in *; lia).
  cbn [bind]. f_equal.
  replace (size + 3 + len p + len (f idat) + locb) with next by (unfold next, idat; lia).
  rewrite u64_small by (unfold next, idat in *; lia). rewrite HLaw.
  assert (Em : match map e_p es with [] => 0 | _ :: _ => next end = match es with [] => 0 | _ :: _ => next end) by (destruct es; reflexivity).
  rewrite Em. las.
Qed.

Lemma s16_small z : - 2 ^ 15 <= z < 2 ^ 15 -> s16 z = z.
Proof. intros H. unfold s16. rewrite Z.mod_small; lia. Qed.

Section Loop.
  Variables (bm : build) (v : view) (locb : Z).
  Variable P : view -> list double -> Prop.
  Variable RE : mu_entry -> tabulatedData * list ed_obj -> Prop.
  Hypothesis HP : forall w l, content w l -> P w l.
  Hypothesis Hlocb : 1 <= locb.

  Definition mu_reads (e : mu_entry) : Prop :=
    - 2 ^ 15 <= e_law e < 2 ^ 15 /\ word_fun (e_f e)
    /\ forall b vp, fits (e_f e) b -> content vp (e_p e) -> exists t lo hi,
         td_make bm vp = Ok t /\ (e <- td_x bm t ;; front e) = Ok lo /\ (e <- td_x bm t ;; back e) = Ok hi
         /\ forall w, P w (e_f e b) -> exists ds, mu_read bm (e_law e) b lo hi w = Ok ds /\ RE e (t, ds).

  Lemma mu_loop_ok es done fuel : 
    has v (done ++ mu_bodies (locb + len done) es) ->
    (forall l1 l2, done ++ mu_bodies (locb + len done) es = l1 ++ l2 -> P (sub v (vbeg v + len l1) (vend v)) l2) ->
    locb + len done + len (mu_bodies (locb + len done) es) <= 2 ^ 31 ->
    Forall mu_reads es -> es <> [] -> (length es <= fuel)%nat ->
    exists rs, mu_loop bm locb v fuel (1 + len done) = Ok rs /\ Forall2 RE es rs.
  Proof.
    revert done fuel. induction es as [|[[law p] f] es IH]; intros done fuel Hv HPl HL HF Hne Hfuel; [congruence|].
    destruct fuel as [|fuel]; [cbn in Hfuel; lia|]. cbn [length] in Hfuel.
    inversion HF as [|? ? (Hlaw & Hwf & Hread) HF']; subst. clear Hne.
    cbn [e_law e_p e_f fst snd] in Hlaw, Hwf, Hread.
    cbn [mu_loop]. cbn [mu_bodies] in Hv, HPl, HL.
    set (B := locb + len done) in *. set (idat := B + 3 + len p) in *. set (next := idat + len (f idat)) in *.
    set (lnw := match es with [] => 0 | _ => next end) in *.
    repeat rewrite ?len_app, ?len_cons in HL.
    pose proof (len_nonneg p) as Np. pose proof (len_nonneg (f idat)) as Nf. pose proof (len_nonneg (mu_bodies next es)) as Nb.
    pose proof (len_nonneg done) as Nd. pose proof (has_bounds _ _ Hv) as Bv. repeat rewrite ?len_app, ?len_cons in Bv.
    assert (Bl : 0 <= lnw < 2 ^ 31 \/ lnw = 2 ^ 31).
    { unfold lnw. destruct es; unfold next, idat, B in *; lia. }
    assert (Hnext : es <> [] -> next < 2 ^ 31).
    { intros Hes. destruct es as [|[[law' p'] f'] es']; [congruence|]. cbn [mu_bodies] in HL. rewrite len_app, !len_cons in HL.
      pose proof (len_nonneg (p' ++ f' (next + 3 + len p'))). 
      match type of HL with context [len (mu_bodies ?x es')] => pose proof (len_nonneg (mu_bodies x es')) end. lia. }
    assert (Bl' : 0 <= lnw < 2 ^ 31).
    { unfold lnw in *. destruct es; [lia|]. specialize (Hnext ltac:(congruence)). unfold next, idat, B in *. lia. }
    rewrite (ixss_size_at bm v done lnw (dbl law :: dbl idat :: (p ++ f idat) ++ mu_bodies next es)); [|apply (has_eq _ _ _ Hv); las|lia|lia].
    cbn [bind].
    rewrite (ixss_at bm v (done ++ [dbl lnw]) law (dbl idat :: (p ++ f idat) ++ mu_bodies next es));
      [|apply (has_eq _ _ _ Hv); las|rewrite len_app; change (len [dbl lnw]) with 1; lia|lia].
    cbn [bind]. rewrite s16_small by lia.
    destruct Hwf as [Wf1 Wf2]. pose proof (Wf2 idat) as Wf2i.
    assert (Bidat : 0 <= idat < 2 ^ 31) by (unfold next, idat, B in *; lia).
    rewrite (ixss_size_at bm v (done ++ [dbl lnw; dbl law]) idat ((p ++ f idat) ++ mu_bodies next es));
      [|apply (has_eq _ _ _ Hv); las|rewrite len_app; change (len [dbl lnw; dbl law]) with 2; lia|lia].
    cbn [bind]. rewrite !adv_small by (unfold idat, B in *; lia).
    set (pbegin := vbeg v + (1 + len done) + 3 - 1). set (dbegin := vbeg v + idat + - (locb - 1) - 1).
    destruct (Hread idat (sub v pbegin dbegin)) as (t & lo & hi & Mt & Elo & Ehi & Hd).
    { unfold fits. unfold next, idat, B in *. lia. }
    { apply (sub_content v (done ++ [dbl lnw; dbl law; dbl idat]) p (f idat ++ mu_bodies next es)).
      - apply (has_eq _ _ _ Hv). las.
      - rewrite len_app. change (len [dbl lnw; dbl law; dbl idat]) with 3. unfold pbegin. lia.
      - rewrite len_app. change (len [dbl lnw; dbl law; dbl idat]) with 3. unfold dbegin, idat, B. lia. }
    rewrite Mt. cbn [bind]. rewrite Elo, Ehi. cbn [bind].
    destruct es as [|e' es'].
    - (* last *)
      change lnw with 0. cbn [Z.eqb]. cbn [mu_bodies] in *. rewrite ?app_nil_r in *.
      destruct (Hd (sub v dbegin (vend v))) as (ds & Rd & REd).
      { replace dbegin with (vbeg v + len (done ++ [dbl 0; dbl law; dbl idat] ++ p)).
        - apply HPl. unfold lnw. las.
        - rewrite !len_app. change (len [dbl 0; dbl law; dbl idat]) with 3. unfold dbegin, idat, B. lia. }
      rewrite Rd. cbn [bind]. exists [(t, ds)]. split; [reflexivity|]. constructor; [exact REd|constructor].
    - change lnw with next. destruct (Z.eqb_spec next 0) as [E|_]; [unfold next, idat, B in *; lia|].
      specialize (Hnext ltac:(congruence)).
      destruct (Hd (sub v dbegin (vbeg v + next + - (locb - 1) - 1))) as (ds & Rd & REd).
      { apply HP. apply (sub_content v (done ++ [dbl lnw; dbl law; dbl idat] ++ p) (f idat) (mu_bodies next (e' :: es'))).
        - apply (has_eq _ _ _ Hv). las.
        - rewrite !len_app. change (len [dbl lnw; dbl law; dbl idat]) with 3. unfold dbegin, idat, B. lia.
        - rewrite !len_app. change (len [dbl lnw; dbl law; dbl idat]) with 3. unfold next, idat, B. lia. }
      rewrite Rd. cbn [bind].
      set (done' := done ++ dbl lnw :: dbl law :: dbl idat :: p ++ f idat).
      assert (Ld : locb + len done' = next).
      { unfold done'. rewrite len_app, !len_cons, len_app. unfold next, idat, B. lia. }
      assert (Ed : done ++ (dbl lnw :: dbl law :: dbl idat :: p ++ f idat) ++ mu_bodies next (e' :: es') = done' ++ mu_bodies (locb + len done') (e' :: es')).
      { rewrite Ld. unfold done'. rewrite <- app_assoc. reflexivity. }
      destruct (IH done' fuel) as (rs & Hrs & Frs); auto.
      + rewrite <- Ed. exact Hv.
      + intros l1 l2 E. apply HPl. rewrite Ed. exact E.
      + rewrite Ld. unfold next, idat, B in *. lia.
      + congruence.
      + lia.
      + replace (u64 (next - (locb - 1))) with (1 + len done') by (rewrite u64_small; unfold next, idat, B in *; lia).
        rewrite Hrs. cbn [bind]. eexists; split; [reflexivity|]. constructor; [exact REd|exact Frs].
  Qed.
End Loop.

(** ** The kind of an object *)

Definition ed_tag (o : ed_obj) : Z :=
  match o with
  | OEqui _ => 1 | ODiscrete _ => 2 | OLevel _ => 3 | OTwoBody _ => 33 | ONBody _ => 66
  | OOutgoing _ => 4 | OKalbach _ => 44 | OEnergyAngle _ => 61 | OAngleEnergy _ => 67
  | OGeneralEvap _ => 5 | OMaxwell _ => 7 | OEvaporation _ => 9 | OWatt _ => 11
  end.

Lemma bind_ok {A B} (x : outcome A) (f : A -> outcome B) r : bind x f = Ok r -> exists a, x = Ok a /\ f a = Ok r.
Proof. destruct x; cbn; intros; try discriminate. eauto. Qed.

Lemma ed_of_tag bm srt i o : ed_of bm srt i = Ok o -> ed_tag o = law_of i.
Proof.
  destruct i; cbn [ed_of law_of]; intros H;
    repeat (match type of H with bind _ _ = Ok _ => let a := fresh "a" in let E := fresh "E" in apply bind_ok in H as (a & E & H) end);
    injection H as <-; reflexivity.
Qed.
Lemma ed_shows_tag bm b l o i : ed_shows bm b l o i -> ed_tag o = law_of i.
Proof. destruct i, o; cbn; intros H; reflexivity || contradiction. Qed.
Lemma ed_LAW_tag o : ed_tag o <> 67 -> ed_LAW o = ed_tag o.
Proof. destruct o; cbn; congruence. Qed.
Lemma law_67 i : law_of i = 67 <-> is67 i.
Proof. destruct i; cbn; split; intros; try contradiction; try discriminate; auto. Qed.
Lemma law_61 i : law_of i = 61 <-> is61 i.
Proof. destruct i; cbn; split; intros; try contradiction; try discriminate; auto. Qed.
Lemma law_range i : 1 <= law_of i <= 67.
Proof. destruct i; cbn; lia. Qed.

Lemma mu_words_ed bm o b : ed_tag o <> 61 -> ed_tag o <> 67 -> 0 <= b < 2 ^ 53 -> mu_words bm o b = ed_words bm o b.
Proof.
  intros H1 H2 Hb. destruct o; cbn [ed_tag mu_words ed_words] in *; try congruence;
    rewrite trunc_to_size_dbl by exact Hb; reflexivity.
Qed.

(** ** Multi-law distributions *)

Definition en_holds bm (g : Z -> list double) (o : en_obj) : Prop :=
  forall b, fits g b -> en_words bm o b = Ok (g b).
Definition en_kind srt (e : en_in) (g : Z -> list double) : Prop :=
  word_fun g
  /\ (forall bm, exists o, en_of bm srt e = Ok o /\ en_holds bm g o)
  /\ forall bm b v, fits g b -> has v (g b) -> exists o, en_read bm b v = Ok o /\ en_shows bm o e
       /\ (content v (g b) -> en_holds bm g o).

Definition sumZ (l : list Z) : Z := fold_right Z.add 0 l.

(** The words of the parts, and their total number. *)
Definition mu_fits srt (xs : list (pr_in * ed_in)) (locb : Z) : Prop :=
  exists lls, Forall2 (fun x ls => pr_words (fst x) = Ok (fst ls) /\ exists bm, ed_generate bm srt (snd x) = Ok (snd ls)) xs lls
    /\ locb + sumZ (map (fun ls => 3 + len (fst ls) + len (snd ls)) lls) <= 2 ^ 31.

(** The distributions for which ACEtk writes what it can read. *)
Definition en_valid srt (e : en_in) : Prop :=
  match e with
  | ISingle i => ed_valid srt i /\ ~ is67 i
  | IMulti xs locb => 2 <= len xs /\ Forall (mu_part srt) xs /\ 1 <= locb /\ mu_fits srt xs locb
  end.

(** The number of words of a distribution in a block: 9 words of header for one law, 3 and
    the probability words per law otherwise. *)
Definition en_size srt (e : en_in) (n : Z) : Prop :=
  match e with
  | ISingle i => exists bm l, ed_generate bm srt i = Ok l /\ n = 9 + len l
  | IMulti xs _ => exists lls,
      Forall2 (fun x ls => pr_words (fst x) = Ok (fst ls) /\ exists bm, ed_generate bm srt (snd x) = Ok (snd ls)) xs lls
      /\ n = sumZ (map (fun ls => 3 + len (fst ls) + len (snd ls)) lls)
  end.
Definition en_sized srt (e : en_in) (g : Z -> list double) : Prop :=
  forall n, en_size srt e n -> forall b, len (g b) = n.

Definition part_kind srt (x : pr_in * ed_in) (e : mu_entry) : Prop :=
  e_law e = law_of (snd x) /\ pr_words (fst x) = Ok (e_p e) /\ exists lo hi, ed_kind srt (snd x) (e_f e) lo hi.

Lemma parts_exist srt xs lls : eqb_sort_contract srt -> Forall (mu_part srt) xs ->
  Forall2 (fun x ls => pr_words (fst x) = Ok (fst ls) /\ exists bm, ed_generate bm srt (snd x) = Ok (snd ls)) xs lls ->
  exists es, Forall2 (part_kind srt) xs es
    /\ forall b, len (mu_bodies b es) = sumZ (map (fun ls => 3 + len (fst ls) + len (snd ls)) lls).
Proof.
  intros Hsrt HF H2. induction H2 as [|x [p l] xs lls [Hp (bm & Hl)] H2 IH].
  - exists []. split; [constructor|]. reflexivity.
  - inversion HF as [|? ? HP HF']; subst. destruct (IH HF') as (es & F & L).
    destruct HP as (_ & Hv & _). destruct (ed_kind_exists srt (snd x) Hsrt Hv) as (f & lo & hi & K & Fit & G).
    exists ((law_of (snd x), p, f) :: es). split.
    + constructor; [|exact F]. split; [reflexivity|]. split; [exact Hp|]. exists lo, hi. exact K.
    + intros b. cbn [mu_bodies map sumZ fold_right fst snd]. cbn [fst snd] in Hl. rewrite G in Hl. injection Hl as <-.
      rewrite len_app, L, !len_cons, len_app. destruct K as [[Kf _] _]. rewrite (Kf _ (ed_locb (snd x))). unfold sumZ. lia.
Qed.

Definition RE_has bm srt (e : mu_entry) (r : tabulatedData * list ed_obj) : Prop :=
  xss_all (td_v (fst r)) = Ok (e_p e)
  /\ exists o, snd r = [o] /\ forall x, part_kind srt x e -> mu_part srt x ->
       pr_shows bm (fst r) (fst x) /\ exists b l, ed_shows bm b l o (snd x).
Definition RE_content bm srt (e : mu_entry) (r : tabulatedData * list ed_obj) : Prop :=
  RE_has bm srt e r /\ exists o, snd r = [o] /\ mu_dist_holds bm e o.

Lemma part_prob bm srt x e vp : part_kind srt x e -> mu_part srt x -> content vp (e_p e) ->
  exists t, td_make bm vp = Ok t /\ xss_all (td_v t) = Ok (e_p e) /\ pr_shows bm t (fst x)
    /\ (e <- td_x bm t ;; front e) = Ok (hd (dbl 0) (pr_x (fst x)))
    /\ (e <- td_x bm t ;; back e) = Ok (last (pr_x (fst x)) (dbl 0)).
Proof.
  intros (_ & Hp & _) ((Hx & _) & _) Hc.
  destruct (td_round_trip bm vp _ _ _ _ _ Hp (content_has _ _ Hc)) as (t & Mt & Vt & St).
  exists t. split; [exact Mt|]. split; [rewrite Vt; apply xss_all_content; exact Hc|]. split; [exact St|].
  exact (front_back_shows _ _ _ _ _ _ St Hx).
Qed.

Lemma part_dist bm srt x e b w : part_kind srt x e -> mu_part srt x -> fits (e_f e) b -> has w (e_f e b) ->
  exists o, mu_read bm (e_law e) b (hd (dbl 0) (pr_x (fst x))) (last (pr_x (fst x)) (dbl 0)) w = Ok [o]
    /\ ed_shows bm b (e_f e b) o (snd x) /\ (content w (e_f e b) -> mu_dist_holds bm e o).
Proof.
  intros (Hl & _ & lo & hi & Hk) (_ & _ & H61 & H67 & Hlim) Hb Hw.
  destruct Hk as (_ & _ & _ & R). destruct (R bm b w _ _ Hb Hlim Hw) as (o & Ro & So & Ho).
  exists o. rewrite <- law_61 in H61. rewrite <- law_67 in H67. pose proof (ed_shows_tag _ _ _ _ _ So) as T.
  split.
  - unfold mu_read. rewrite Hl, Ro. cbn [bind]. destruct (Z.eqb_spec (law_of (snd x)) 67); [congruence|reflexivity].
  - split; [exact So|]. intros Hc. destruct (Ho Hc) as (_ & _ & W). split.
    + rewrite Hl, <- T. apply ed_LAW_tag. congruence.
    + intros b' Hb'. rewrite mu_words_ed by (try congruence; destruct Hb'; pose proof (len_nonneg (e_f e b')); lia). auto.
Qed.

Lemma part_reads bm srt x e (P : view -> list double -> Prop) (RE : mu_entry -> tabulatedData * list ed_obj -> Prop) :
  part_kind srt x e -> mu_part srt x ->
  (forall w l, P w l -> has w l) ->
  (forall t o w b, xss_all (td_v t) = Ok (e_p e) -> P w (e_f e b) ->
     (forall x, part_kind srt x e -> mu_part srt x -> pr_shows bm t (fst x) /\ exists b l, ed_shows bm b l o (snd x)) ->
     (content w (e_f e b) -> mu_dist_holds bm e o) -> RE e (t, [o])) ->
  mu_reads bm P RE e.
Proof.
  intros Hk Hp HP HRE. split; [|split].
  - destruct Hk as (-> & _). pose proof (law_range (snd x)). lia.
  - destruct Hk as (_ & _ & lo & hi & K & _). exact K.
  - intros b vp Hb Hc. destruct (part_prob bm srt x e vp Hk Hp Hc) as (t & Mt & Xt & St & E1 & E2).
    exists t, (hd (dbl 0) (pr_x (fst x))), (last (pr_x (fst x)) (dbl 0)). split; [exact Mt|]. split; [exact E1|]. split; [exact E2|].
    intros w Hw. destruct (part_dist bm srt x e b w Hk Hp Hb (HP _ _ Hw)) as (o & Ro & So & Ho).
    exists [o]. split; [exact Ro|]. apply (HRE t o w b); auto.
    intros x' Hk' Hp'. destruct (part_prob bm srt x' e vp Hk' Hp' Hc) as (t' & Mt' & _ & St' & E1' & E2').
    rewrite Mt in Mt'. injection Mt' as <-. rewrite E1 in E1'. rewrite E2 in E2'. apply Ok_inj in E1'. apply Ok_inj in E2'.
    destruct (part_dist bm srt x' e b w Hk' Hp' Hb (HP _ _ Hw)) as (o' & Ro' & So' & _).
    rewrite <- E1', <- E2', Ro in Ro'. injection Ro' as <-. split; [exact St'|]. exists b, (e_f e b). exact So'.
Qed.

Definition mu_holds bm (es : list mu_entry) (m : multi) : Prop :=
  Forall2 (fun e p => xss_all (td_v p) = Ok (e_p e)) es (mu_probs m) /\ Forall2 (mu_dist_holds bm) es (mu_dists m).

Lemma Forall2_Forall_r {A B} (R : A -> B -> Prop) (Q : B -> Prop) l r :
  Forall2 R l r -> (forall a b, In a l -> In b r -> R a b -> Q b) -> Forall Q r.
Proof.
  induction 1; intros H'; constructor.
  - eapply H'; [left; reflexivity|left; reflexivity|assumption].
  - apply IHForall2. intros. eapply H'; eauto; right; auto.
Qed.

Lemma mu_bodies_pos b es : len es <= len (mu_bodies b es).
Proof.
  revert b; induction es as [|[[law p] f] es IH]; intros b; cbn [mu_bodies]; [unfold len; cbn; lia|].
  specialize (IH (b + 3 + len p + len (f (b + 3 + len p)))). rewrite len_app.
  unfold len in IH |- *. cbn [length]. lia.
Qed.

Lemma mu_make_ok bm srt xs es b v :
  xs <> [] -> Forall (mu_part srt) xs -> Forall2 (part_kind srt) xs es -> fits (fun b => mu_bodies b es) b ->
  has v (mu_bodies b es) ->
  exists m, mu_make bm b v = Ok m /\ mu_v m = v /\ en_shows bm (Multi m) (IMulti xs b)
    /\ (content v (mu_bodies b es) -> mu_holds bm es m).
Proof.
  intros Hne Hp Hk [Hb Hs] Hv.
  assert (Hes : es <> []) by (destruct Hk; congruence).
  assert (HinP : forall x, In x xs -> mu_part srt x) by (intros x; rewrite Forall_forall in Hp; apply Hp).
  assert (Hfuel : (length es <= S (length (buf v)))%nat).
  { pose proof (mu_bodies_pos b es). pose proof (has_bounds _ _ Hv). unfold len in *. lia. }
  destruct (mu_loop_ok bm v b has (RE_has bm srt) content_has Hb es [] (S (length (buf v)))) as (rs & Hrs & Frs); auto.
  { cbn [app]. change (len (@nil double)) with 0. rewrite Z.add_0_r. exact Hv. }
  { cbn [app]. change (len (@nil double)) with 0. rewrite Z.add_0_r. intros l1 l2 E. apply (sub_has_tail v l1 l2); [rewrite <- E; exact Hv|reflexivity]. }
  { change (len (@nil double)) with 0. rewrite !Z.add_0_r. exact Hs. }
  { apply (Forall2_Forall_r _ _ _ _ Hk). intros x e Hx _ K. apply (part_reads bm srt x e); auto.
    intros t o w b' Xt Hw Hall _. split; [exact Xt|]. exists o. auto. }
  change (1 + len (@nil double)) with 1 in Hrs.
  assert (Hrs2 : content v (mu_bodies b es) -> Forall2 (RE_content bm srt) es rs).
  { intros Hc. destruct (mu_loop_ok bm v b content (RE_content bm srt) (fun _ _ H => H) Hb es [] (S (length (buf v)))) as (rs' & Hrs' & Frs'); auto.
    { cbn [app]. change (len (@nil double)) with 0. rewrite Z.add_0_r. exact Hv. }
    { cbn [app]. change (len (@nil double)) with 0. rewrite Z.add_0_r. intros l1 l2 E. apply (sub_content_tail v l1 l2); [rewrite <- E; exact Hc|reflexivity]. }
    { change (len (@nil double)) with 0. rewrite !Z.add_0_r. exact Hs. }
    { apply (Forall2_Forall_r _ _ _ _ Hk). intros x e Hx _ K. apply (part_reads bm srt x e); auto.
      - exact content_has.
      - intros t o w b' Xt Hw Hall Hh. split; [split; [exact Xt|]; exists o; auto|]. exists o. auto. }
    change (1 + len (@nil double)) with 1 in Hrs'. rewrite Hrs in Hrs'. injection Hrs' as <-. exact Frs'. }
  unfold mu_make. rewrite Hrs. cbn [bind]. eexists; split; [reflexivity|]. split; [reflexivity|].
  assert (Hconc : exists os, concat (map snd rs) = os /\ Forall2 (fun r o => snd r = [o]) rs os).
  { clear - Frs. induction Frs as [|e [t ds] es rs (_ & o & Ho & _) _ (os & E & F)]; [exists []; split; [reflexivity|constructor]|].
    exists (o :: os). cbn [map concat snd] in *. rewrite Ho, E. split; [reflexivity|]. constructor; [reflexivity|exact F]. }
  destruct Hconc as (os & Eos & Fos).
  assert (Los : len os = len xs). { unfold len. rewrite <- (Forall2_len _ _ _ Fos), <- (Forall2_len _ _ _ Frs), <- (Forall2_len _ _ _ Hk). reflexivity. }
  assert (Lxs : len xs < 2 ^ 31).
  { pose proof (mu_bodies_pos b es). pose proof (has_bounds _ _ Hv). unfold len in *. rewrite (Forall2_len _ _ _ Hk). lia. }
  split.
  - cbn [en_shows]. unfold mu_numberDistributions. cbn [mu_dists]. rewrite Eos. split; [exact Los|].
    intros k x Hx.
    assert (Hr : forall A B (R : A -> B -> Prop) l r k a, Forall2 R l r -> nth_error l k = Some a -> exists b, nth_error r k = Some b /\ R a b).
    { clear. intros A B R l r k a H. revert k. induction H; intros [|k]; cbn; intros E; try discriminate; [injection E as <-; eauto|auto]. }
    destruct (Hr _ _ _ _ _ _ _ Hk Hx) as (e & He & Ke).
    destruct (Hr _ _ _ _ _ _ _ Frs He) as ([t ds] & Hrk & _ & o & Eds & Hall).
    destruct (Hr _ _ _ _ _ _ _ Fos Hrk) as (o' & Ho' & E'). cbn [fst snd] in *. rewrite E' in Eds. injection Eds as ->.
    destruct (Hall x Ke (HinP x (nth_error_In _ _ Hx))) as [S1 S2].
    exists t, o. pose proof (nth_error_len _ _ _ Hx) as Bk.
    unfold mu_probability, mu_distribution, mu_numberDistributions. cbn [mu_dists mu_probs]. rewrite Los.
    rewrite u64_small by lia. rewrite check_verifyIndex by lia. cbn [bind].
    split. { apply (at_has _ k); [rewrite nth_error_map, Hrk; reflexivity|reflexivity|]. rewrite len_map. unfold len. rewrite <- (Forall2_len _ _ _ Frs), <- (Forall2_len _ _ _ Hk). unfold len in Lxs. lia. }
    split; [exact S1|]. split; [|exact S2]. apply (at_has _ k); [exact Ho'|reflexivity|lia].
  - intros Hc. specialize (Hrs2 Hc). unfold mu_holds. cbn [mu_probs mu_dists]. rewrite Eos. split.
    + clear - Hrs2. induction Hrs2 as [|e r es rs [[H _] _] _ IH]; constructor; auto.
    + clear - Hrs2 Fos. revert os Fos. induction Hrs2 as [|e r es rs (_ & o & Eo & Ho) _ IH]; intros os Fos; inversion Fos; subst; constructor.
      * rewrite H1 in Eo. injection Eo as ->. exact Ho.
      * auto.
Qed.

Lemma mu_of_ok bm srt xs es b m :
  xs <> [] -> Forall (mu_part srt) xs -> Forall2 (part_kind srt) xs es -> fits (fun b => mu_bodies b es) b ->
  mu_holds bm es m ->
  exists m', mu_of bm (mu_probs m) (mu_dists m) b = Ok m' /\ content (mu_v m') (mu_bodies b es)
    /\ mu_holds bm es m'.
Proof.
  intros Hne Hp Hk Hfit [H1 H2]. unfold mu_of.
  assert (M : mapM (fun p => xss_all (td_v p)) (mu_probs m) = Ok (map e_p es)).
  { clear - H1. induction H1 as [|e p es ps E _ IH]; [reflexivity|]. cbn [mapM map]. rewrite E. cbn [bind]. rewrite IH. reflexivity. }
  rewrite M. cbn [bind]. unfold mu_generateXSS.
  assert (L : len (mu_dists m) = len (map e_p es)). { rewrite len_map. unfold len. rewrite (Forall2_len _ _ _ H2). reflexivity. }
  rewrite L, Z.eqb_refl. cbn [negb throw_if bind].
  assert (HW : Forall (fun e => word_fun (e_f e)) es).
  { apply (Forall2_Forall_r _ _ _ _ Hk). intros x e _ _ (_ & _ & lo & hi & K & _). exact K. }
  pose proof (mu_append_ok bm b es _ (mu_dists m) 0 HW eq_refl H2) as A. rewrite Z.add_0_r in A.
  destruct Hfit as [F1 F2]. rewrite A by lia. cbn [bind].
  assert (C : content (own (mu_bodies b es)) (mu_bodies b es)) by (apply own_content; unfold max_words; lia).
  destruct (mu_make_ok bm srt xs es b _ Hne Hp Hk (conj F1 F2) (content_has _ _ C)) as (m' & Mm & Vm & _ & Hh).
  exists m'. rewrite Vm. auto.
Qed.

Lemma round_to_u32_dbl n : 0 <= n < 2 ^ 32 -> round_to_u32 (dbl n) = Ok n.
Proof.
  intros H. unfold round_to_u32. rewrite sf_round_dbl by lia.
  destruct ((0 <=? n) && (n <? 2 ^ 32)) eqn:E; [reflexivity|lia].
Qed.
Lemma round_to_law_dbl n : - 2 ^ 15 <= n < 2 ^ 15 -> round_to_law (dbl n) = Ok n.
Proof.
  intros H. unfold round_to_law. rewrite sf_round_dbl by lia.
  destruct ((- 2 ^ 15 <=? n) && (n <? 2 ^ 15)) eqn:E; [reflexivity|lia].
Qed.

(** ** Distributions of a block *)

Definition sg_words (law : Z) (lo hi : double) (f : Z -> list double) (b : Z) : list double :=
  [dbl 0; dbl law; dbl (b + 9); dbl 0; dbl 2; lo; hi; dbl 1; dbl 1] ++ f (b + 9).

Lemma len_sg law lo hi f b : len (sg_words law lo hi f b) = 9 + len (f (b + 9)).
Proof. unfold sg_words. rewrite len_app. reflexivity. Qed.

Lemma single_words bm law lo hi f o b :
  ed_holds bm f lo hi o -> ed_LAW o = law -> fits (sg_words law lo hi f) b ->
  en_words bm (Single o) b = Ok (sg_words law lo hi f b).
Proof.
  intros (E1 & E2 & W) El [B1 B2]. rewrite len_sg in B2. pose proof (len_nonneg (f (b + 9))).
  cbn [en_words]. replace (b + 3 + 1 + 5) with (b + 9) by lia. rewrite u64_small by lia. rewrite E1, E2. cbn [bind].
  rewrite W by (split; lia). cbn [bind]. rewrite El. reflexivity.
Qed.

Lemma single_reads bm law lo hi f b v Q :
  fits (sg_words law lo hi f) b -> has v (sg_words law lo hi f b) -> word_fun f -> - 2 ^ 15 <= law < 2 ^ 15 ->
  (forall w, has w (f (b + 9)) -> (content v (sg_words law lo hi f b) -> content w (f (b + 9))) ->
     exists o, ed_read bm law (b + 9) lo hi w = Ok o /\ Q o) ->
  exists o, en_read bm b v = Ok (Single o) /\ Q o.
Proof.
  intros [B1 B2] Hv [_ Wp] Hlaw Hread. rewrite len_sg in B2. pose proof (Wp (b + 9)) as Wp'.
  unfold sg_words in *. cbn [app] in Hv.
  unfold en_read.
  rewrite (deref_at v [] (dbl 0) (dbl law :: dbl (b + 9) :: dbl 0 :: dbl 2 :: lo :: hi :: dbl 1 :: dbl 1 :: f (b + 9)) _ Hv) by (rewrite len_nil; lia).
  cbn [bind]. rewrite round_to_u32_dbl by lia. cbn [bind Z.eqb].
  rewrite (deref_at v [dbl 0] (dbl law) (dbl (b + 9) :: dbl 0 :: dbl 2 :: lo :: hi :: dbl 1 :: dbl 1 :: f (b + 9)) _ Hv) by reflexivity.
  cbn [bind]. rewrite round_to_law_dbl by lia. cbn [bind].
  rewrite (deref_at v [dbl 0; dbl law] (dbl (b + 9)) (dbl 0 :: dbl 2 :: lo :: hi :: dbl 1 :: dbl 1 :: f (b + 9)) _ Hv) by reflexivity.
  cbn [bind]. rewrite round_to_size_dbl by lia. cbn [bind].
  rewrite (deref_at v [dbl 0; dbl law; dbl (b + 9)] (dbl 0) (dbl 2 :: lo :: hi :: dbl 1 :: dbl 1 :: f (b + 9)) _ Hv) by reflexivity.
  cbn [bind]. rewrite round_to_size_dbl by lia. cbn [bind]. rewrite !adv_small by lia.
  rewrite (deref_at v [dbl 0; dbl law; dbl (b + 9); dbl 0] (dbl 2) (lo :: hi :: dbl 1 :: dbl 1 :: f (b + 9)) _ Hv)
    by (change (len [dbl 0; dbl law; dbl (b + 9); dbl 0]) with 4; lia).
  cbn [bind]. rewrite round_to_size_dbl by lia. cbn [bind].
  rewrite (deref_at v [dbl 0; dbl law; dbl (b + 9); dbl 0; dbl 2] lo (hi :: dbl 1 :: dbl 1 :: f (b + 9)) _ Hv)
    by (change (len [dbl 0; dbl law; dbl (b + 9); dbl 0; dbl 2]) with 5; lia).
  cbn [bind]. rewrite !adv_small by lia.
  rewrite (deref_at v [dbl 0; dbl law; dbl (b + 9); dbl 0; dbl 2; lo] hi (dbl 1 :: dbl 1 :: f (b + 9)) _ Hv)
    by (change (len [dbl 0; dbl law; dbl (b + 9); dbl 0; dbl 2; lo]) with 6; lia).
  cbn [bind].
  destruct (Hread (sub v (vbeg v + (b + 9 - b)) (vend v))) as (o & Ro & Qo).
  - apply (sub_has_tail v [dbl 0; dbl law; dbl (b + 9); dbl 0; dbl 2; lo; hi; dbl 1; dbl 1] _ _ Hv).
    match goal with |- context [len ?l] => change (len l) with 9 end. lia.
  - intros Hc. cbn [app] in Hc. apply (sub_content_tail v [dbl 0; dbl law; dbl (b + 9); dbl 0; dbl 2; lo; hi; dbl 1; dbl 1] _ _ Hc).
    match goal with |- context [len ?l] => change (len l) with 9 end. lia.
  - rewrite Ro. cbn [bind]. exists o. auto.
Qed.

Lemma parts_unique srt xs lls lls' : eqb_sort_contract srt -> Forall (mu_part srt) xs ->
  Forall2 (fun x ls => pr_words (fst x) = Ok (fst ls) /\ exists bm, ed_generate bm srt (snd x) = Ok (snd ls)) xs lls ->
  Forall2 (fun x ls => pr_words (fst x) = Ok (fst ls) /\ exists bm, ed_generate bm srt (snd x) = Ok (snd ls)) xs lls' ->
  lls = lls'.
Proof.
  intros Hsrt HF H. revert lls'. induction H as [|x [p l] xs lls [Hp (bm & Hl)] H IH]; intros lls' H'; inversion H' as [|? [p' l'] ? ? [Hp' (bm' & Hl')] H'']; subst; [reflexivity|].
  inversion HF as [|? ? HP HF']; subst. destruct HP as (_ & Hv & _). cbn [fst snd] in *.
  destruct (ed_kind_exists srt (snd x) Hsrt Hv) as (f & lo & hi & _ & _ & G). rewrite G in Hl, Hl'.
  rewrite Hp in Hp'. injection Hp' as <-. injection Hl as <-. injection Hl' as <-. f_equal. apply IH; assumption.
Qed.

Lemma en_kind_exists srt e : eqb_sort_contract srt -> en_valid srt e -> exists g, en_kind srt e g /\ en_sized srt e g.
Proof.
  intros Hsrt Hv. destruct e as [i|xs locb]; cbn [en_valid] in Hv.
  - destruct Hv as [Hv H67]. rewrite <- law_67 in H67.
    destruct (ed_kind_exists srt i Hsrt Hv) as (f & lo & hi & (Wf & Lim & Of & Rd) & _ & Gf).
    exists (sg_words (law_of i) lo hi f). split;
      [|intros n (bm & l & Hl & ->) b; rewrite Gf in Hl; injection Hl as <-; rewrite len_sg; destruct Wf as [W1 _]; rewrite (W1 (b + 9) (ed_locb i)); reflexivity].
    split; [|split].
    + destruct Wf as [W1 W2]. split; intros; rewrite !len_sg.
      * rewrite (W1 (b + 9) (b' + 9)). reflexivity.
      * pose proof (W2 (b + 9)). lia.
    + intros bm. destruct (Of bm) as (o & Ho & Hh). exists (Single o). cbn [en_of]. rewrite Ho. split; [reflexivity|].
      intros b Hb. apply (single_words bm (law_of i) lo hi f o b); auto.
      pose proof (ed_of_tag _ _ _ _ Ho). rewrite ed_LAW_tag; congruence.
    + intros bm b v Hb Hhas.
      destruct (single_reads bm (law_of i) lo hi f b v
        (fun o => en_shows bm (Single o) (ISingle i) /\ (content v (sg_words (law_of i) lo hi f b) -> en_holds bm (sg_words (law_of i) lo hi f) (Single o)))
        Hb Hhas Wf) as (o & Ro & So & Ho).
      * pose proof (law_range i). lia.
      * intros w Hw Hcw. destruct (Rd bm (b + 9) w lo hi) as (o & Ro & So & Ho); auto.
        { destruct Hb as [B1 B2]. rewrite len_sg in B2. split; lia. }
        exists o. split; [exact Ro|]. split.
        -- cbn [en_shows]. eauto.
        -- intros Hc b' Hb'. apply (single_words bm (law_of i) lo hi f o b'); auto.
           pose proof (ed_shows_tag _ _ _ _ _ So). rewrite ed_LAW_tag; congruence.
      * exists (Single o). auto.
  - destruct Hv as (H2 & Hp & Hb & lls & HF & HL).
    destruct (parts_exist srt xs lls Hsrt Hp HF) as (es & Hk & Les).
    assert (Hne : xs <> []) by (intros ->; rewrite len_nil in H2; lia).
    assert (Hes2 : 2 <= len es) by (unfold len in *; rewrite <- (Forall2_len _ _ _ Hk); lia).
    exists (fun b => mu_bodies b es). split;
      [|intros n (lls' & HF' & ->) b; rewrite (parts_unique srt xs lls' lls Hsrt Hp HF' HF); apply Les].
    split; [|split].
    + split; intros; rewrite ?Les; [reflexivity|]. rewrite <- (Les 1). pose proof (mu_bodies_pos 1 es). lia.
    + intros bm. cbn [en_of].
      assert (Mp : exists ps, mapM (fun x => pr_of bm (fst x)) xs = Ok ps /\ Forall2 (fun e p => xss_all (td_v p) = Ok (e_p e)) es ps).
      { clear - Hk Hp. induction Hk as [|x e xs es Kx _ IH]; [exists []; split; [reflexivity|constructor]|].
        inversion Hp as [|? ? P1 P2]; subst. destruct (IH P2) as (ps & M & F).
        destruct Kx as (_ & Wp & _). destruct P1 as ((_ & l & Wl & Bl) & _). rewrite Wp in Wl. injection Wl as <-.
        destruct (td_of_round_trip bm _ _ _ _ _ Wp) as (t & Ot & Ct & _); [unfold max_words; lia|].
        exists (t :: ps). cbn [mapM]. unfold pr_of at 1. rewrite Ot. cbn [bind]. rewrite M. split; [reflexivity|].
        constructor; [apply xss_all_content; exact Ct|exact F]. }
      assert (Md : exists ds, mapM (fun x => ed_of bm srt (snd x)) xs = Ok ds /\ Forall2 (mu_dist_holds bm) es ds).
      { clear - Hk Hp. induction Hk as [|x e xs es Kx _ IH]; [exists []; split; [reflexivity|constructor]|].
        inversion Hp as [|? ? P1 P2]; subst. destruct (IH P2) as (ds & M & F).
        destruct Kx as (Hl & _ & lo & hi & _ & _ & Of & _). destruct (Of bm) as (o & Oo & _ & _ & Wo).
        destruct P1 as (_ & _ & H61 & H67 & _). rewrite <- law_61 in H61. rewrite <- law_67 in H67.
        pose proof (ed_of_tag _ _ _ _ Oo) as T.
        exists (o :: ds). cbn [mapM]. rewrite Oo. cbn [bind]. rewrite M. split; [reflexivity|].
        constructor; [|exact F]. split; [rewrite Hl, <- T; apply ed_LAW_tag; congruence|].
        intros b Bb. rewrite mu_words_ed by (try congruence; destruct Bb; pose proof (len_nonneg (e_f e b)); lia). auto. }
      destruct Mp as (ps & -> & Fp). destruct Md as (ds & -> & Fd). cbn [bind].
      assert (Fit : fits (fun b => mu_bodies b es) locb) by (split; [exact Hb|rewrite Les; lia]).
      destruct (mu_of_ok bm srt xs es locb (MultiD (own []) locb ps ds) Hne Hp Hk Fit (conj Fp Fd)) as (m & Mm & Cm & Hm).
      cbn [mu_probs mu_dists] in Mm. rewrite Mm. exists (Multi m). split; [reflexivity|].
      intros b Bb. cbn [en_words]. destruct (mu_of_ok bm srt xs es b m Hne Hp Hk Bb Hm) as (m' & -> & Cm' & _).
      cbn [bind]. apply xss_all_content. exact Cm'.
    + intros bm b v Bb Hhas.
      destruct (mu_make_ok bm srt xs es b v Hne Hp Hk Bb Hhas) as (m & Mm & Vm & Sm & Hm).
      exists (Multi m). split; [|split].
      * destruct es as [|[[law p] f] [|e' es']]; [rewrite len_nil in Hes2; lia|rewrite len_cons, len_nil in Hes2; lia|].
        unfold en_read.
        assert (Hlnw : exists n tl, mu_bodies b ((law, p, f) :: e' :: es') = dbl n :: tl /\ 0 < n < 2 ^ 31).
        { cbn [mu_bodies]. set (next := b + 3 + len p + len (f (b + 3 + len p))).
          eexists next, _. split; [reflexivity|]. destruct Bb as [B1 B2]. cbv beta in B2. cbn [mu_bodies] in B2. fold next in B2.
          destruct e' as [[law' p'] f']. repeat rewrite ?len_app, ?len_cons in B2.
          pose proof (len_nonneg p). pose proof (len_nonneg (f (b + 3 + len p))). pose proof (len_nonneg p').
          pose proof (len_nonneg (f' (next + 3 + len p'))).
          match type of B2 with context [len (mu_bodies ?x es')] => pose proof (len_nonneg (mu_bodies x es')) end.
          unfold next in *. lia. }
        destruct Hlnw as (n & tl & En & Bn). rewrite En in Hhas.
        rewrite (deref_at v [] (dbl n) tl _ Hhas) by (rewrite len_nil; lia). cbn [bind].
        rewrite round_to_u32_dbl by lia. cbn [bind]. destruct (Z.eqb_spec n 0); [lia|]. rewrite Mm. reflexivity.
      * exact Sm.
      * intros Hc b' Bb'. specialize (Hm Hc). cbn [en_words].
        destruct (mu_of_ok bm srt xs es b' m Hne Hp Hk Bb' Hm) as (m' & -> & Cm' & _).
        cbn [bind]. apply xss_all_content. exact Cm'.
Qed.
