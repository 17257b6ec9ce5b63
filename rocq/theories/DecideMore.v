(** Lemmas for C50, continued: angular distributions and nested distributions. *)
From Coq Require Import ZArith Bool List Lia.
From Coq Require Import ZifyBool ZifyNat.
From Verif Require Import PropLemmasBasic Truncated NuBlock AtomicBlocks ElectronBlocks ThermalBlocks Accepted Decide PropsDecide.
Import ListNotations.
Open Scope Z_scope.

(** ** Specification *)

(** Where an angular distribution starts: an isotropic one has no words. *)
Definition angular_start (locb loc : Z) : Z := if loc =? 0 then 0 else Z.abs loc - locb + 1.
(** The words it needs: 33 cosines, or n cosines, pdf and cdf values behind two words. *)
Definition angular_words (loc cnt : Z) : Z := if loc <? 0 then 2 + 3 * cnt else 33.
(** Energies and locators are there; each distribution that is not isotropic starts and ends inside the range and has the words it needs. *)
Definition angular_fits (v : view) (ne locb : Z) (loc cnt : Z -> Z) : Prop :=
  let start i := angular_start locb (loc i) in
  1 + 2 * ne <= size v
  /\ forall i, 1 <= i <= ne -> loc i <> 0 ->
       1 <= start i <= size v + 1 /\ stop v ne start i <= size v + 1 /\ angular_words (loc i) (cnt i) <= size (part v ne start i).
(** What a distribution shows. *)
Definition angular_shows bm (loc cnt : Z) (d : angular view) : Prop :=
  if loc =? 0 then exists e, d = AIso e
  else if loc <? 0 then exists e w, d = ATab e w /\ tp_numberValues bm w = Ok cnt /\ returns (tp_values bm w) cnt /\ returns (tp_pdf bm w) cnt /\ returns (tp_cdf bm w) cnt
  else exists e w, d = AEqui e w /\ returns (eq_cosines bm w) 33.

(** ** Proof *)

Lemma u64_wrap z : - 2 ^ 32 < z < 0 -> 2 ^ 33 < u64 z.
Proof. intros H. unfold u64. Z.div_mod_to_equations. lia. Qed.

Section Angles.
  Context (v : view) (ne locb : Z) (loc cnt : Z -> Z).
  Hypothesis I : inside v.
  Hypothesis He : 0 <= ne < 2 ^ 29.
  Hypothesis Hlocb : 1 <= locb < 2 ^ 31.
  Hypothesis S1 : states v 1 ne.
  Hypothesis Hloc : forall i, 1 <= i <= ne -> states v (1 + ne + i) (loc i) /\ - 2 ^ 31 < loc i < 2 ^ 31.
  Let rel (i : Z) : Z := angular_start locb (loc i).
  Hypothesis Hcnt : forall i, 1 <= i <= ne -> loc i < 0 -> states (part v ne rel i) 2 (cnt i) /\ 0 <= cnt i < 2 ^ 30.

  Let head : Z := 1 + 2 * ne.
  Let values : columnData := ColumnData (sub v (vbeg v) (vbeg v + 2 * ne + 1)) 2.
  Let ra (i : Z) : Z := u64 (rel i).

  Lemma ang_head bm : head <= size v -> cd_make (sub v (vbeg v) (vbeg v + 2 * ne + 1)) 2 = Ok values /\ cd_N bm values = Ok ne
    /\ an_make bm locb v = (ds <- mapM (an_distribution bm v locb values ne) (seqZ 1 (Z.to_nat ne)) ;; Ok (AngularData locb v values ds)).
  Proof.
    intros L. unfold head in L. pose proof (size_bound v I) as SB. pose proof I as [(F1 & F2 & F3) F4]. unfold max_words in F3.
    assert (W := states_holds v 1 ne I S1 ltac:(lia)). replace (vbeg v + 1 - 1) with (vbeg v) in W by lia.
    pose (w := sub v (vbeg v) (vbeg v + 2 * ne + 1)).
    assert (Iw : inside w) by (unfold size in L; apply Decide.sub_inside; auto; lia).
    destruct (cd_enough w 2 ne Iw ltac:(lia) ltac:(lia) W ltac:(lia)) as [M N]; [unfold w; rewrite sub_size; lia|].
    split; [exact M|]. split; [exact (N bm)|]. unfold an_make, an_generateBlocks.
    counted v 1 ne S1 I. rewrite (iter_in v I bm) by lia. cbn [bind]. replace (vbeg v + (2 * ne + 2) - 1) with (vbeg v + 2 * ne + 1) by lia.
    fold w. rewrite M. cbn [bind]. change (ColumnData w 2) with values in *. rewrite (N bm). cbn [bind].
    destruct (mapM _ _) as [ds| |]; [|reflexivity|reflexivity]. cbn [bind an_values]. rewrite (N bm). cbn [bind]. rewrite u32_small by lia.
    rewrite verify_enough by (assumption || lia). reflexivity.
  Qed.
  Lemma ang_verify bm i : head <= size v -> 1 <= i <= ne -> an_verify bm values i = Ok tt.
  Proof.
    intros L Hi. destruct (ang_head bm L) as (_ & N & _). unfold an_verify. destruct (debug bm) eqn:D; [|reflexivity]. rewrite N. cbn [bind].
    unfold verifyIndex, throw_if. rewrite u64_small by lia. destruct ((i <? 1) || (ne <? i)) eqn:E; [lia|reflexivity].
  Qed.
  Lemma ang_value bm c i : head <= size v -> (c = 1 \/ c = 2) -> 1 <= i <= ne -> cd_value bm values c i = deref (buf v) (vbeg v + (1 + (c - 1) * ne + i) - 1).
  Proof.
    intros L Hc Hi. destruct (ang_head bm L) as (_ & N & _). pose proof (size_bound v I) as SB. unfold cd_value. rewrite N. cbn [bind]. unfold values. cbn [cd_v]. unfold head in L.
    rewrite xss_word.
    - unfold sub. cbn [buf vbeg]. f_equal. lia.
    - unfold size in L. apply Decide.sub_inside; auto; lia.
    - rewrite sub_size. destruct Hc as [-> | ->]; lia.
  Qed.
  Lemma ang_locc bm i : head <= size v -> 1 <= i <= ne -> an_LOCC bm values i = Ok (loc i).
  Proof.
    intros L Hi. unfold an_LOCC. rewrite (ang_verify bm i L Hi). cbn [bind]. rewrite (ang_value bm 2 i L ltac:(auto) Hi). destruct (Hloc i Hi) as [S R].
    unfold head in L. destruct (states_holds v (1 + ne + i) (loc i) I S ltac:(lia)) as (w & E & [_ Hw]).
    replace (1 + (2 - 1) * ne + i) with (1 + ne + i) by lia. rewrite E. cbn [bind]. unfold trunc_to_int, in_int. rewrite Hw.
    destruct ((- 2 ^ 31 <=? loc i) && (loc i <? 2 ^ 31)) eqn:Q; [reflexivity|lia].
  Qed.
  Lemma ang_energy_ bm i : head <= size v -> 1 <= i <= ne -> exists e, an_incidentEnergy bm values i = Ok e.
  Proof.
    intros L Hi. unfold an_incidentEnergy. rewrite (ang_verify bm i L Hi). cbn [bind]. rewrite (ang_value bm 1 i L ltac:(auto) Hi).
    pose proof I as [(F1 & F2 & F3) F4]. apply deref_inside. unfold head, size in L. lia.
  Qed.
  Lemma ang_rel_bound i : 1 <= i <= ne -> - 2 ^ 31 < rel i < 2 ^ 31.
  Proof. intros Hi. destruct (Hloc i Hi) as [_ R]. unfold rel, angular_start. destruct (loc i =? 0); lia. Qed.
  Lemma ang_rel bm i : head <= size v -> 1 <= i <= ne -> an_relative bm locb values i = Ok (ra i).
  Proof.
    intros L Hi. unfold an_relative. rewrite (ang_locc bm i L Hi). cbn [bind]. unfold ra, rel, angular_start. destruct (loc i =? 0); [|reflexivity].
    rewrite u64_small by lia. reflexivity.
  Qed.
  Lemma ang_right bm start js : head <= size v -> (forall j, In j js -> 1 <= j <= ne) ->
    an_right bm v locb values start js = match next_start ra start js with Some l => iter bm v l | None => Ok (vend v) end.
  Proof.
    intros L. induction js as [|j js IH]; intros H; [reflexivity|]. cbn [an_right next_start]. rewrite (ang_rel bm j L) by (apply H; left; reflexivity). cbn [bind].
    destruct (start <? ra j); [reflexivity|]. apply IH. intros k Hk. apply H. right. exact Hk.
  Qed.
  Lemma ra_small i : 1 <= i <= ne -> ra i < 2 ^ 32 -> ra i = rel i.
  Proof.
    intros Hi H. pose proof (ang_rel_bound i Hi). unfold ra in *. destruct (Z.ltb_spec (rel i) 0) as [X|X]; [pose proof (u64_wrap (rel i)); lia|].
    apply u64_small. lia.
  Qed.
  Lemma ra_nonneg i : 0 <= ra i.
  Proof. unfold ra, u64. Z.div_mod_to_equations. lia. Qed.
  (** when the locator found is not far away, no locator before it was negative *)
  Lemma next_same start js : 0 <= start < 2 ^ 32 -> (forall j, In j js -> 1 <= j <= ne) ->
    match next_start ra start js with Some l => l < 2 ^ 32 -> next_start rel start js = Some l | None => next_start rel start js = None end.
  Proof.
    intros Hs. induction js as [|j js IH]; intros H; [reflexivity|]. cbn [next_start]. assert (Hj := H j (or_introl eq_refl)).
    destruct (Z.ltb_spec start (ra j)) as [X|X].
    - intros B. rewrite (ra_small j Hj B). rewrite (ra_small j Hj B) in X. destruct (Z.ltb_spec start (rel j)); [reflexivity|lia].
    - rewrite (ra_small j Hj) in X by lia. destruct (Z.ltb_spec start (rel j)); [lia|]. apply IH. intros k Hk. apply H. right. exact Hk.
  Qed.
  Lemma nexts_in i j : 1 <= i <= ne -> In j (seqZ (i + 1) (Z.to_nat (ne - i))) -> 1 <= j <= ne.
  Proof. intros Hi Hj. apply in_seqZ in Hj. lia. Qed.
  Lemma next_above (f : Z -> Z) start js l : next_start f start js = Some l -> start < l.
  Proof. induction js as [|j js IH]; [discriminate|]. cbn [next_start]. destruct (Z.ltb_spec start (f j)) as [X|X]; [|exact IH]. intros E. injection E as <-. exact X. Qed.

  (** one distribution *)
  Definition ang_make bm i e w : outcome (angular view) := if loc i <? 0 then ta_make bm e w else Angular.eq_make e w.

  Lemma ang_make_decides i e : 1 <= i <= ne -> loc i <> 0 -> inside (part v ne rel i) ->
    needs (part v ne rel i) (angular_words (loc i) (cnt i)) (fun bm => ang_make bm i e (part v ne rel i)) (fun bm d => angular_shows bm (loc i) (cnt i) d).
  Proof.
    intros Hi Nz In. unfold ang_make, angular_words, angular_shows. destruct (Z.eqb_spec (loc i) 0); [contradiction|].
    destruct (Z.ltb_spec (loc i) 0) as [X|X].
    - destruct (Hcnt i Hi X) as [S R]. destruct (C50_tabulated_distribution _ (cnt i) In S R) as [A B]. split.
      + intros L bm. destruct (A L bm) as (d & E & H). exists (ATab e d). unfold ta_make. rewrite E. split; [reflexivity|]. exists e, d. auto.
      + intros L. destruct (B L) as [x E]. unfold ta_make. rewrite E. eexists. reflexivity.
    - generalize (part v ne rel i) as w, In. clear. intros w In. pose proof (size_bound w In) as SB. unfold Angular.eq_make. fold (size w).
      rewrite u64_small by lia. split.
      + intros L bm. exists (AEqui e w). unfold throw_if. destruct (Z.ltb_spec (size w) 33); [lia|]. split; [reflexivity|]. exists e, w. split; [reflexivity|].
        assert (M : Angular.eq_make e w = Ok (AEqui e w)) by (unfold Angular.eq_make; fold (size w); rewrite u64_small by lia; unfold throw_if; destruct (Z.ltb_spec (size w) 33); [lia|reflexivity]).
        exact (equi_readable bm e w _ In M).
      + intros L. unfold throw_if. destruct (Z.ltb_spec (size w) 33); [|lia]. eexists. reflexivity.
  Qed.

  Lemma ang_in bm i : head <= size v -> 1 <= i <= ne -> loc i <> 0 -> 1 <= rel i <= size v + 1 -> (forall j, 1 <= j <= ne -> 0 <= rel j) -> stop v ne rel i <= size v + 1 ->
    exists e, an_distribution bm v locb values ne i = ang_make bm i e (part v ne rel i) /\ inside (part v ne rel i).
  Proof.
    intros L Hi Nz A Pos B. pose proof (size_bound v I) as SB. pose proof I as [(F1 & F2 & F3) F4]. destruct (ang_energy_ bm i L Hi) as [e E]. exists e.
    unfold an_distribution. rewrite (ang_locc bm i L Hi). cbn [bind]. rewrite E. cbn [bind]. destruct (Z.eqb_spec (loc i) 0); [contradiction|].
    rewrite (ang_rel bm i L Hi). cbn [bind]. assert (R : forall j, 1 <= j <= ne -> ra j = rel j).
    { intros j Hj. unfold ra. apply u64_small. pose proof (Pos j Hj). pose proof (ang_rel_bound j Hj). lia. }
    rewrite (R i Hi). rewrite (iter_in v I bm) by exact A. cbn [bind]. rewrite ang_right by (try exact L; intros j; apply nexts_in; exact Hi).
    pose proof (next_same (rel i) (seqZ (i + 1) (Z.to_nat (ne - i))) ltac:(lia) (fun j => nexts_in i j Hi)) as Nx.
    assert (Q : next_start ra (rel i) (seqZ (i + 1) (Z.to_nat (ne - i))) = next_start rel (rel i) (seqZ (i + 1) (Z.to_nat (ne - i)))).
    { assert (G : forall js, (forall j, In j js -> 1 <= j <= ne) -> next_start ra (rel i) js = next_start rel (rel i) js).
      { induction js as [|j js IH]; intros H; [reflexivity|]. cbn [next_start]. rewrite (R j) by (apply H; left; reflexivity).
        destruct (rel i <? rel j); [reflexivity|]. apply IH. intros k Hk. apply H. right. exact Hk. }
      apply G. intros j. apply nexts_in. exact Hi. }
    rewrite Q. unfold part, stop in *. unfold ang_make.
    destruct (next_start rel (rel i) _) as [l|] eqn:El.
    - pose proof (next_above _ _ _ _ El). rewrite (iter_in v I bm) by lia. cbn [bind]. split; [reflexivity|]. unfold size in *. apply Decide.sub_inside; auto; lia.
    - cbn [bind]. replace (vbeg v + (size v + 1) - 1) with (vend v) by (unfold size; lia). split; [reflexivity|]. unfold size in *. apply Decide.sub_inside; auto; lia.
  Qed.

  Lemma ang_settles i : head <= size v -> 1 <= i <= ne ->
    ((exists d, an_distribution Debug v locb values ne i = Ok d)
       /\ (loc i <> 0 -> 1 <= rel i <= size v + 1 /\ stop v ne rel i <= size v + 1 /\ angular_words (loc i) (cnt i) <= size (part v ne rel i)))
    \/ exists e, an_distribution Debug v locb values ne i = Throw e.
  Proof.
    intros L Hi. pose proof (size_bound v I) as SB. pose proof I as [(F1 & F2 & F3) F4]. destruct (ang_energy_ Debug i L Hi) as [e E].
    unfold an_distribution. rewrite (ang_locc Debug i L Hi). cbn [bind]. rewrite E. cbn [bind]. destruct (Z.eqb_spec (loc i) 0) as [Z0|Nz]; [left; split; [eauto|contradiction]|].
    rewrite (ang_rel Debug i L Hi). cbn [bind]. pose proof (ra_nonneg i) as R0. pose proof (ang_rel_bound i Hi) as RB.
    assert (R1 : ra i < 2 ^ 64) by (unfold ra, u64; Z.div_mod_to_equations; lia).
    assert (Far : forall l, (l < 1 \/ size v + 1 < l) -> 0 <= l < 2 ^ 64 -> iter Debug v l = Throw OutOfRange).
    { intros l H1 H2. unfold iter. rewrite (inside_vlen v I). cbn [debug]. fold (size v). rewrite (u64_small (size v + 1)), (u64_small l) by lia.
      unfold verifyIndex, throw_if. destruct ((l <? 1) || _) eqn:X; [reflexivity|lia]. }
    assert (C : 1 <= ra i <= size v + 1 \/ (ra i < 1 \/ size v + 1 < ra i)) by lia. destruct C as [C|C]; [|right; rewrite (Far (ra i) C) by lia; eexists; reflexivity].
    assert (Re : ra i = rel i) by (apply ra_small; [exact Hi|lia]). rewrite Re in *. rewrite (iter_in v I Debug) by exact C. cbn [bind].
    rewrite ang_right by (try exact L; intros j; apply nexts_in; exact Hi).
    pose proof (next_same (rel i) (seqZ (i + 1) (Z.to_nat (ne - i))) ltac:(lia) (fun j => nexts_in i j Hi)) as Nx.
    assert (Fin : stop v ne rel i <= size v + 1 -> inside (part v ne rel i) ->
      ((exists d, ang_make Debug i e (part v ne rel i) = Ok d) /\ (loc i <> 0 -> 1 <= rel i <= size v + 1 /\ stop v ne rel i <= size v + 1 /\ angular_words (loc i) (cnt i) <= size (part v ne rel i)))
      \/ exists x, ang_make Debug i e (part v ne rel i) = Throw x).
    { intros B In. destruct (ang_make_decides i e Hi Nz In) as [G1 G2]. destruct (Z.leb_spec (angular_words (loc i) (cnt i)) (size (part v ne rel i))) as [Q|Q]; [left|right; exact (G2 Q)].
      destruct (G1 Q Debug) as (d & Ed & _). split; [eauto|]. auto. }
    unfold ang_make, part, stop in Fin. unfold part, stop.
    destruct (next_start ra (rel i) _) as [l|] eqn:El.
    - pose proof (next_above _ _ _ _ El). assert (Hl : 0 <= l < 2 ^ 64).
      { split; [lia|]. clear - El. revert El. generalize (seqZ (i + 1) (Z.to_nat (ne - i))). induction l0 as [|j js IH]; [discriminate|]. cbn [next_start].
        destruct (rel i <? ra j); [|exact IH]. intros E. injection E as <-. unfold ra, u64. Z.div_mod_to_equations. lia. }
      destruct (Z.leb_spec l (size v + 1)) as [B|B]; [|right; rewrite (Far l) by lia; eexists; reflexivity].
      rewrite (Nx ltac:(lia)) in *. rewrite (iter_in v I Debug) by lia. cbn [bind]. apply Fin; [exact B|]. unfold size in *. apply Decide.sub_inside; auto; lia.
    - rewrite Nx in *. cbn [bind]. replace (vbeg v + (size v + 1) - 1) with (vend v) in * by (unfold size; lia). apply Fin; [lia|]. unfold size in *. apply Decide.sub_inside; auto; lia.
  Qed.

  Lemma an_decides :
    (angular_fits v ne locb loc cnt -> forall bm, exists o, an_make bm locb v = Ok o /\ an_NE bm o = Ok ne
       /\ forall i, 1 <= i <= ne -> exists d, an_datum bm o i = Ok d /\ angular_shows bm (loc i) (cnt i) d)
    /\ (~ angular_fits v ne locb loc cnt -> exists e, an_make Debug locb v = Throw e).
  Proof.
    pose proof (size_bound v I) as SB. split.
    - intros [L F] bm. destruct (ang_head bm L) as (_ & N & ->).
      assert (Pos : forall j, 1 <= j <= ne -> 0 <= rel j).
      { intros j Hj. destruct (Z.eq_dec (loc j) 0) as [Z0|Nz]; [unfold rel, angular_start; rewrite Z0; cbn; lia|]. destruct (F j Hj Nz) as (A & _). unfold rel. lia. }
      destruct (mapM_seq (an_distribution bm v locb values ne) (fun k d => angular_shows bm (loc (Z.of_nat k + 1)) (cnt (Z.of_nat k + 1)) d) (Z.to_nat ne) 1 0) as (ds & E & Nl & R).
      { intros k Hk. replace (Z.of_nat (0 + k) + 1) with (1 + Z.of_nat k) by lia. set (i := 1 + Z.of_nat k). assert (Hi : 1 <= i <= ne) by lia.
        destruct (Z.eq_dec (loc i) 0) as [Z0|Nz].
        - destruct (ang_energy_ bm i L Hi) as [e Ee]. exists (AIso e). unfold an_distribution. rewrite (ang_locc bm i L Hi). cbn [bind]. rewrite Ee. cbn [bind]. rewrite Z0. cbn [Z.eqb].
          split; [reflexivity|]. unfold angular_shows. cbn [Z.eqb]. eauto.
        - destruct (F i Hi Nz) as (A & B & C). destruct (ang_in bm i L Hi Nz A Pos B) as (e & -> & In). destruct (ang_make_decides i e Hi Nz In) as [G _].
          exact (G C bm). }
      rewrite E. cbn [bind]. eexists. split; [reflexivity|]. split; [exact N|]. intros i Hi. unfold an_datum. cbn [an_values an_dists].
      rewrite (ang_verify bm i L Hi). cbn [bind]. unfold at_. rewrite u64_small by lia.
      destruct (nth_error ds (Z.to_nat (i - 1))) as [d|] eqn:Nd; [|apply nth_error_None in Nd; lia].
      exists d. split; [reflexivity|]. specialize (R _ _ Nd). replace (Z.of_nat (0 + Z.to_nat (i - 1)) + 1) with i in R by lia. exact R.
    - intros F. destruct (Z.leb_spec head (size v)) as [L|L].
      + destruct (ang_head Debug L) as (_ & N & ->).
        destruct (mapM_settles (an_distribution Debug v locb values ne) (seqZ 1 (Z.to_nat ne))) as [(r & _ & Q)|[e R]].
        { intros i Hi. apply in_seqZ in Hi. destruct (ang_settles i L ltac:(lia)) as [[E _]|E]; auto. }
        2: { rewrite R. eexists. reflexivity. }
        exfalso. apply F. split; [exact L|]. intros i Hi Nz. destruct (Q i) as [d Ed]; [apply in_seqZ; lia|].
        destruct (ang_settles i L Hi) as [[_ A]|[e E]]; [exact (A Nz)|congruence].
      + unfold head in L. unfold an_make, an_generateBlocks. present v 1. counted v 1 ne S1 I. rewrite (iter_out v I) by lia. eexists. reflexivity.
  Qed.
End Angles.

(** * Distributions with an interpolation type: positions are computed as size_t *)

Lemma nexts_range n i j : 1 <= i <= n -> In j (seqZ (i + 1) (Z.to_nat (n - i))) -> 1 <= j <= n.
Proof. intros Hi Hj. apply in_seqZ in Hj. lia. Qed.
Lemma next_later (f : Z -> Z) start js l : next_start f start js = Some l -> start < l.
Proof. induction js as [|j js IH]; [discriminate|]. cbn [next_start]. destruct (Z.ltb_spec start (f j)) as [X|X]; [|exact IH]. intros E. injection E as <-. exact X. Qed.

Section DistsI.
  Context {D : Type} (gd : build -> double -> Z -> view -> outcome D) (v : view) (ne locb : Z) (loc : Z -> Z) (ok : Z -> Prop) (P : build -> Z -> D -> Prop).
  Hypothesis I : inside v.
  Hypothesis He : 0 <= ne < 2 ^ 29.
  Hypothesis Hlocb : 1 <= locb < 2 ^ 31.
  Hypothesis S2 : states v 2 ne.
  Hypothesis Hloc : forall i, 1 <= i <= ne -> states v (2 + ne + i) (loc i) /\ 0 <= loc i < 2 ^ 31.
  Let rel (i : Z) : Z := loc i - locb + 1.
  Hypothesis Hgd : forall x i, 1 <= i <= ne -> 1 <= rel i -> inside (part v ne rel i) -> (ok i \/ ~ ok i) /\ decides (ok i) (fun bm => gd bm x (loc i) (part v ne rel i)) (fun bm d => P bm i d).

  Let head : Z := 2 + 2 * ne.
  Let values : columnData := ColumnData (sub v (vbeg v + 1) (vbeg v + 2 * ne + 2)) 2.
  Let ra (i : Z) : Z := u64 (rel i).

  Lemma di_head bm : head <= size v -> cd_N bm values = Ok ne
    /\ di_make bm (gd bm) locb v = (ds <- mapM (dd_distribution bm (gd bm) u64 v locb values ne) (seqZ 1 (Z.to_nat ne)) ;; Ok (DistDataI v locb values ds)).
  Proof.
    intros L. unfold head in L. pose proof (size_bound v I) as SB. pose proof I as [(F1 & F2 & F3) F4]. unfold max_words in F3.
    assert (W := states_holds v 2 ne I S2 ltac:(lia)).
    pose (w := sub v (vbeg v + 1) (vbeg v + 2 * ne + 2)).
    assert (Iw : inside w) by (unfold size in L; apply Decide.sub_inside; auto; lia).
    destruct (cd_enough w 2 ne Iw ltac:(lia) ltac:(lia)) as [M N]; [unfold w, sub; cbn [buf vbeg]; replace (vbeg v + 1) with (vbeg v + 2 - 1) by lia; exact W|lia|unfold w; rewrite sub_size; lia|].
    split; [exact (N bm)|]. unfold di_make. rewrite (read_round bm v 2 _ ne I ltac:(lia) eq_refl W) by lia. cbn [bind]. rewrite u32_small by lia.
    rewrite verify_enough by (assumption || lia). cbn [bind]. unfold di_generateBlocks.
    counted v 2 ne S2 I. rewrite !(iter_in v I bm) by lia. cbn [bind]. replace (vbeg v + 2 - 1) with (vbeg v + 1) by lia. replace (vbeg v + (2 + 2 * ne + 1) - 1) with (vbeg v + 2 * ne + 2) by lia.
    fold w. rewrite M. cbn [bind]. change (ColumnData w 2) with values in *. rewrite (N bm). reflexivity.
  Qed.
  Lemma di_verify_ bm i : head <= size v -> 1 <= i <= ne -> dd_verify bm values i = Ok tt.
  Proof.
    intros L Hi. destruct (di_head bm L) as (N & _). unfold dd_verify. destruct (debug bm) eqn:Db; [|reflexivity]. rewrite N. cbn [bind].
    unfold verifyIndex, throw_if. rewrite u64_small by lia. destruct ((i <? 1) || (ne <? i)) eqn:E; [lia|reflexivity].
  Qed.
  Lemma di_value_at bm c i : head <= size v -> (c = 1 \/ c = 2) -> 1 <= i <= ne -> dd_value bm values c i = deref (buf v) (vbeg v + (2 + (c - 1) * ne + i) - 1).
  Proof.
    intros L Hc Hi. destruct (di_head bm L) as (N & _). pose proof (size_bound v I) as SB. unfold dd_value. rewrite (di_verify_ bm i L Hi). cbn [bind].
    unfold cd_value. rewrite N. cbn [bind]. unfold values. cbn [cd_v]. unfold head in L.
    rewrite xss_word.
    - unfold sub. cbn [buf vbeg]. f_equal. lia.
    - unfold size in L. apply Decide.sub_inside; auto; lia.
    - rewrite sub_size. destruct Hc as [-> | ->]; lia.
  Qed.
  Lemma di_locc bm i : head <= size v -> 1 <= i <= ne -> dd_LOCC bm values i = Ok (loc i).
  Proof.
    intros L Hi. unfold dd_LOCC. change (cd_nc values) with 2. rewrite (di_value_at bm 2 i L ltac:(auto) Hi). destruct (Hloc i Hi) as [S R].
    unfold head in L. destruct (states_holds v (2 + ne + i) (loc i) I S ltac:(lia)) as (w & E & Hw).
    replace (2 + (2 - 1) * ne + i) with (2 + ne + i) by lia. rewrite E. cbn [bind]. apply to_int_whole; [exact Hw|lia].
  Qed.
  Lemma di_first bm i : head <= size v -> 1 <= i <= ne -> exists e, dd_value bm values 1 i = Ok e.
  Proof.
    intros L Hi. rewrite (di_value_at bm 1 i L ltac:(auto) Hi). pose proof I as [(F1 & F2 & F3) F4]. apply deref_inside. unfold head, size in L. lia.
  Qed.
  Lemma di_rel_bound i : 1 <= i <= ne -> - 2 ^ 31 < rel i < 2 ^ 31.
  Proof. intros Hi. destruct (Hloc i Hi) as [_ R]. unfold rel. lia. Qed.
  Lemma di_rel_at bm i : head <= size v -> 1 <= i <= ne -> dd_relative bm u64 locb values i = Ok (ra i).
  Proof. intros L Hi. unfold dd_relative. rewrite (di_locc bm i L Hi). reflexivity. Qed.
  Lemma di_right_at bm start js : head <= size v -> (forall j, In j js -> 1 <= j <= ne) ->
    dd_right bm v (dd_relative bm u64 locb values) start js = match next_start ra start js with Some l => iter bm v l | None => Ok (vend v) end.
  Proof.
    intros L. induction js as [|j js IH]; intros H; [reflexivity|]. cbn [dd_right next_start]. rewrite (di_rel_at bm j L) by (apply H; left; reflexivity). cbn [bind].
    destruct (start <? ra j); [reflexivity|]. apply IH. intros k Hk. apply H. right. exact Hk.
  Qed.
  Lemma di_ra_small i : 1 <= i <= ne -> ra i < 2 ^ 32 -> ra i = rel i.
  Proof.
    intros Hi H. pose proof (di_rel_bound i Hi). unfold ra in *. destruct (Z.ltb_spec (rel i) 0) as [X|X]; [pose proof (u64_wrap (rel i)); lia|].
    apply u64_small. lia.
  Qed.
  Lemma di_ra_range i : 0 <= ra i < 2 ^ 64.
  Proof. unfold ra, u64. Z.div_mod_to_equations. lia. Qed.
  Lemma di_next_same start js : 0 <= start < 2 ^ 32 -> (forall j, In j js -> 1 <= j <= ne) ->
    match next_start ra start js with Some l => l < 2 ^ 32 -> next_start rel start js = Some l | None => next_start rel start js = None end.
  Proof.
    intros Hs. induction js as [|j js IH]; intros H; [reflexivity|]. cbn [next_start]. assert (Hj := H j (or_introl eq_refl)).
    destruct (Z.ltb_spec start (ra j)) as [X|X].
    - intros B. rewrite (di_ra_small j Hj B). rewrite (di_ra_small j Hj B) in X. destruct (Z.ltb_spec start (rel j)); [reflexivity|lia].
    - rewrite (di_ra_small j Hj) in X by lia. destruct (Z.ltb_spec start (rel j)); [lia|]. apply IH. intros k Hk. apply H. right. exact Hk.
  Qed.
  Lemma di_next_range start js l : next_start ra start js = Some l -> start < l < 2 ^ 64.
  Proof.
    induction js as [|j js IH]; [discriminate|]. cbn [next_start]. destruct (Z.ltb_spec start (ra j)) as [X|X]; [|exact IH]. intros E. injection E as <-.
    pose proof (di_ra_range j). lia.
  Qed.
  Lemma far l : (l < 1 \/ size v + 1 < l) -> 0 <= l < 2 ^ 64 -> iter Debug v l = Throw OutOfRange.
  Proof.
    intros H1 H2. pose proof (size_bound v I). unfold iter. rewrite (inside_vlen v I). cbn [debug]. fold (size v). rewrite (u64_small (size v + 1)), (u64_small l) by lia.
    unfold verifyIndex, throw_if. destruct ((l <? 1) || _) eqn:X; [reflexivity|lia].
  Qed.

  Lemma di_in bm i : head <= size v -> 1 <= i <= ne -> (forall j, 1 <= j <= ne -> 1 <= rel j <= size v + 1) -> stop v ne rel i <= size v + 1 ->
    exists x, dd_distribution bm (gd bm) u64 v locb values ne i = gd bm x (loc i) (part v ne rel i) /\ inside (part v ne rel i).
  Proof.
    intros L Hi Pos B. pose proof (size_bound v I) as SB. pose proof I as [(F1 & F2 & F3) F4]. destruct (di_first bm i L Hi) as [x E]. exists x.
    unfold dd_distribution. rewrite E. cbn [bind]. rewrite (di_locc bm i L Hi). cbn [bind]. rewrite (di_rel_at bm i L Hi). cbn [bind].
    assert (R : forall j, 1 <= j <= ne -> ra j = rel j) by (intros j Hj; unfold ra; apply u64_small; pose proof (Pos j Hj); lia).
    pose proof (Pos i Hi) as A. rewrite (R i Hi). rewrite (iter_in v I bm) by exact A. cbn [bind]. rewrite di_right_at by (try exact L; intros j; apply (nexts_range ne i j); exact Hi).
    assert (Q : next_start ra (rel i) (seqZ (i + 1) (Z.to_nat (ne - i))) = next_start rel (rel i) (seqZ (i + 1) (Z.to_nat (ne - i)))).
    { assert (G : forall js, (forall j, In j js -> 1 <= j <= ne) -> next_start ra (rel i) js = next_start rel (rel i) js).
      { induction js as [|j js IH]; intros H; [reflexivity|]. cbn [next_start]. rewrite (R j) by (apply H; left; reflexivity).
        destruct (rel i <? rel j); [reflexivity|]. apply IH. intros k Hk. apply H. right. exact Hk. }
      apply G. intros j. apply (nexts_range ne i j). exact Hi. }
    rewrite Q. destruct (Hloc i Hi) as [_ HR]. rewrite (u64_small (loc i)) by lia. unfold part, stop in *.
    destruct (next_start rel (rel i) _) as [l|] eqn:El.
    - pose proof (next_later _ _ _ _ El). rewrite (iter_in v I bm) by lia. cbn [bind]. split; [reflexivity|]. unfold size in *. apply Decide.sub_inside; auto; lia.
    - cbn [bind]. replace (vbeg v + (size v + 1) - 1) with (vend v) by (unfold size; lia). split; [reflexivity|]. unfold size in *. apply Decide.sub_inside; auto; lia.
  Qed.
  Lemma di_settles i : head <= size v -> 1 <= i <= ne ->
    ((exists d, dd_distribution Debug (gd Debug) u64 v locb values ne i = Ok d) /\ 1 <= rel i <= size v + 1 /\ stop v ne rel i <= size v + 1 /\ ok i)
    \/ exists e, dd_distribution Debug (gd Debug) u64 v locb values ne i = Throw e.
  Proof.
    intros L Hi. pose proof (size_bound v I) as SB. pose proof I as [(F1 & F2 & F3) F4]. destruct (di_first Debug i L Hi) as [x E].
    unfold dd_distribution. rewrite E. cbn [bind]. rewrite (di_locc Debug i L Hi). cbn [bind]. rewrite (di_rel_at Debug i L Hi). cbn [bind].
    pose proof (di_ra_range i) as R0. pose proof (di_rel_bound i Hi) as RB.
    assert (C : 1 <= ra i <= size v + 1 \/ (ra i < 1 \/ size v + 1 < ra i)) by lia. destruct C as [C|C]; [|right; rewrite (far (ra i) C) by lia; eexists; reflexivity].
    assert (Re : ra i = rel i) by (apply di_ra_small; [exact Hi|lia]). rewrite Re in *. rewrite (iter_in v I Debug) by exact C. cbn [bind].
    rewrite di_right_at by (try exact L; intros j; apply (nexts_range ne i j); exact Hi). destruct (Hloc i Hi) as [_ HR].
    pose proof (di_next_same (rel i) (seqZ (i + 1) (Z.to_nat (ne - i))) ltac:(lia) (fun j => nexts_range ne i j Hi)) as Nx.
    assert (Fin : stop v ne rel i <= size v + 1 -> inside (part v ne rel i) ->
      ((exists d, gd Debug x (u64 (loc i)) (part v ne rel i) = Ok d) /\ 1 <= rel i <= size v + 1 /\ stop v ne rel i <= size v + 1 /\ ok i)
      \/ exists e, gd Debug x (u64 (loc i)) (part v ne rel i) = Throw e).
    { intros B In. rewrite (u64_small (loc i)) by lia. destruct (Hgd x i Hi (proj1 C) In) as [[Q|Q] [G1 G2]]; [left|right; exact (G2 Q)].
      destruct (G1 Q Debug) as (d & Ed & _). split; [eauto|]. auto. }
    unfold part, stop in Fin. unfold stop.
    destruct (next_start ra (rel i) _) as [l|] eqn:El.
    - pose proof (di_next_range _ _ _ El) as Hl.
      destruct (Z.leb_spec l (size v + 1)) as [B|B]; [|right; rewrite (far l) by lia; eexists; reflexivity].
      rewrite (Nx ltac:(lia)) in *. rewrite (iter_in v I Debug) by lia. cbn [bind]. apply Fin; [exact B|]. unfold size in *. apply Decide.sub_inside; auto; lia.
    - rewrite Nx in *. cbn [bind]. replace (vbeg v + (size v + 1) - 1) with (vend v) in * by (unfold size; lia). apply Fin; [lia|]. unfold size in *. apply Decide.sub_inside; auto; lia.
  Qed.

  Lemma di_ok_decides : decides (dists_ok v head ne rel ok) (fun bm => di_make bm (gd bm) locb v)
    (fun bm o => di_N bm o = Ok ne /\ forall i, 1 <= i <= ne -> exists d, di_datum bm o i = Ok d /\ P bm i d).
  Proof.
    pose proof (size_bound v I) as SB. split.
    - intros [L F] bm. destruct (di_head bm L) as (N & ->).
      assert (Pos : forall j, 1 <= j <= ne -> 1 <= rel j <= size v + 1) by (intros j Hj; exact (proj1 (F j Hj))).
      destruct (mapM_seq (dd_distribution bm (gd bm) u64 v locb values ne) (fun k d => P bm (Z.of_nat k + 1) d) (Z.to_nat ne) 1 0) as (ds & E & Nl & R).
      { intros k Hk. replace (Z.of_nat (0 + k) + 1) with (1 + Z.of_nat k) by lia. destruct (F (1 + Z.of_nat k) ltac:(lia)) as (A & B & C).
        destruct (di_in bm (1 + Z.of_nat k) L ltac:(lia) Pos B) as (x & -> & In).
        destruct (Hgd x (1 + Z.of_nat k) ltac:(lia) (proj1 A) In) as [_ [G _]]. exact (G C bm). }
      rewrite E. cbn [bind]. eexists. split; [reflexivity|]. split; [exact N|]. intros i Hi. unfold di_datum. cbn [di_values di_dists].
      rewrite (di_verify_ bm i L Hi). cbn [bind]. unfold at_. rewrite u64_small by lia.
      destruct (nth_error ds (Z.to_nat (i - 1))) as [d|] eqn:Nd; [|apply nth_error_None in Nd; lia].
      exists d. split; [reflexivity|]. specialize (R _ _ Nd). replace (Z.of_nat (0 + Z.to_nat (i - 1)) + 1) with i in R by lia. exact R.
    - intros F. destruct (Z.leb_spec head (size v)) as [L|L].
      + destruct (di_head Debug L) as (N & ->).
        destruct (mapM_settles (dd_distribution Debug (gd Debug) u64 v locb values ne) (seqZ 1 (Z.to_nat ne))) as [(r & _ & Q)|[e R]].
        { intros i Hi. apply in_seqZ in Hi. destruct (di_settles i L ltac:(lia)) as [[E _]|E]; auto. }
        2: { rewrite R. eexists. reflexivity. }
        exfalso. apply F. split; [exact L|]. intros i Hi. destruct (Q i) as [d Ed]; [apply in_seqZ; lia|].
        destruct (di_settles i L Hi) as [[_ A]|[e E]]; [exact A|congruence].
      + unfold head in L. unfold di_make. destruct (Z.leb_spec 2 (size v)) as [L2|L2].
        * assert (W := states_holds v 2 ne I S2 ltac:(lia)). rewrite (read_round Debug v 2 _ ne I ltac:(lia) eq_refl W) by lia. cbn [bind].
          rewrite u32_small by lia. rewrite verify_short by (assumption || lia). eexists. reflexivity.
        * rewrite xss_short by (assumption || lia). eexists. reflexivity.
  Qed.
End DistsI.

(** whether a finite condition holds for all of n *)
Lemma all_dec (Q : Z -> Prop) n : (forall i, 1 <= i <= n -> Q i \/ ~ Q i) -> (forall i, 1 <= i <= n -> Q i) \/ ~ (forall i, 1 <= i <= n -> Q i).
Proof.
  intros H. destruct (Z.leb_spec n 0) as [L|L]; [left; intros i Hi; lia|].
  assert (G : forall k, (Z.of_nat k <= n) -> (forall i, 1 <= i <= Z.of_nat k -> Q i) \/ ~ (forall i, 1 <= i <= Z.of_nat k -> Q i)).
  { induction k as [|k IH]; intros Hk; [left; intros i Hi; lia|]. destruct (IH ltac:(lia)) as [A|A].
    - destruct (H (Z.of_nat (S k)) ltac:(lia)) as [B|B].
      + left. intros i Hi. destruct (Z.eq_dec i (Z.of_nat (S k))) as [-> |X]; [exact B|]. apply A. lia.
      + right. intros F. apply B. apply F. lia.
    - right. intros F. apply A. intros i Hi. apply F. lia. }
  specialize (G (Z.to_nat n) ltac:(lia)). rewrite Z2Nat.id in G by lia. exact G.
Qed.
Lemma dists_fit_dec v head n rel need : dists_fit v head n rel need \/ ~ dists_fit v head n rel need.
Proof.
  unfold dists_fit. destruct (Z.leb_spec head (size v)) as [L|L]; [|right; lia].
  destruct (all_dec (fun i => 1 <= rel i <= size v + 1 /\ stop v n rel i <= size v + 1 /\ need i <= size (part v n rel i)) n) as [A|A]; [intros i _; lia| |].
  - left. auto.
  - right. intros [_ F]. exact (A F).
Qed.

(** * Fission multiplicities *)

Lemma whole_positive w z : whole_number w z -> 0 < z -> SFltb w (dbl 0) = false.
Proof.
  intros [R _] Hz. destruct w as [s|s| |s m e]; try reflexivity; [discriminate R|]. cbn [sf_round] in R. destruct s; [|reflexivity]. exfalso. injection R as R.
  assert (0 <= round_pos m e).
  { unfold round_pos. destruct (Z.leb_spec 0 e) as [L|L].
    - pose proof (Z.pow_nonneg 2 e ltac:(lia)). apply Z.mul_nonneg_nonneg; lia.
    - apply Z.div_pos; [pose proof (Z.pow_nonneg 2 (- e - 1) ltac:(lia)); lia|apply Z.pow_pos_nonneg; lia]. }
  lia.
Qed.

Lemma nu_kind v kind bm : inside v -> 1 <= size v -> states v 1 kind -> 1 <= kind < 2 ^ 31 ->
  nu_make bm v = (if kind =? 1 then p <- pf_make bm v ;; Ok (Nu v (NuPoly p) None)
                  else if kind =? 2 then t <- tf_make bm v ;; Ok (Nu v (NuTab t) None) else Throw StdException).
Proof.
  intros I L S K. pose proof (size_bound v I) as SB. destruct (states_holds v 1 kind I S ltac:(lia)) as (w & E & Hw). replace (vbeg v + 1 - 1) with (vbeg v) in E by lia.
  unfold nu_make, nu_generateBlocks. rewrite (inside_vlen v I). fold (size v). destruct (Z.ltb_spec 0 (size v)); [|lia].
  rewrite xss_word by (assumption || lia). replace (vbeg v + 1 - 1) with (vbeg v) by lia. rewrite E. cbn [bind]. rewrite (whole_positive w kind Hw ltac:(lia)).
  unfold nu_generateData. rewrite E. cbn [bind]. unfold round_to_u32. rewrite (proj1 Hw). destruct ((0 <=? kind) && (kind <? 2 ^ 32)) eqn:X; [|lia]. cbn [bind].
  destruct (kind =? 1); [destruct (pf_make bm v); reflexivity|]. destruct (kind =? 2); [destruct (tf_make bm v); reflexivity|]. reflexivity.
Qed.
