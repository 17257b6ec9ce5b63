(** ContinuousEnergyTable built from blocks: which combinations are accepted. *)
From Coq Require Import ZArith Bool List Lia Ascii.
From Coq Require Import ZifyBool ZifyNat.
From Verif Require Import PropLemmasBasic.
From Verif Require Export PropsBlocks ContinuousTable.
Import ListNotations.
Open Scope Z_scope.

(** * Specification *)

(** Optional blocks that go together *)
Definition none {A} (o : option A) : Prop := o = None.

(** The blocks fit together: [mts] are the reaction numbers of the MTR block. *)
Record ce_consistent (i : ceIn) (mts : list Z) : Prop := {
  cc_lqr : mt_NTR (ci_lqr i) = len mts;
  cc_sig : bl_n (ci_sig i) = len mts;
  cc_dlw : dl_NR (ci_dlw i) <= len mts;
  cc_ang : ab_nr (ci_ang i) = dl_NR (ci_dlw i);
  cc_nu : In 18 mts -> ci_nu i <> None;
  cc_photon : (none (ci_gpd i) /\ none (ci_mtrp i) /\ none (ci_sigp i) /\ none (ci_andp i) /\ none (ci_dlwp i) /\ none (ci_yp i))
    \/ exists g m s a d y, ci_gpd i = Some g /\ ci_mtrp i = Some m /\ ci_sigp i = Some s /\ ci_andp i = Some a /\ ci_dlwp i = Some d /\ ci_yp i = Some y
         /\ ab_nr a = mt_NTR m /\ dh_NR d = mt_NTR m;
  cc_delayed : (none (ci_dnu i) /\ none (ci_bdd i) /\ none (ci_dned i))
    \/ exists n b d, ci_dnu i = Some n /\ ci_bdd i = Some b /\ ci_dned i = Some d
         /\ (exists o, nu_prompt n = NuTab o) /\ nu_total n = None /\ dh_NR d = bd_NPCR b;
  cc_secondary : (none (ci_ptype i) /\ none (ci_hpd i) /\ none (ci_mtrh i) /\ none (ci_sigh i) /\ none (ci_andh i) /\ none (ci_dlwh i) /\ none (ci_yh i))
    \/ exists p h m s a d y, ci_ptype i = Some p /\ ci_hpd i = Some h /\ ci_mtrh i = Some m /\ ci_sigh i = Some s /\ ci_andh i = Some a
         /\ ci_dlwh i = Some d /\ ci_yh i = Some y
         /\ len h = mt_NTR p /\ len m = mt_NTR p /\ len s = mt_NTR p /\ len a = mt_NTR p /\ len d = mt_NTR p /\ len y = mt_NTR p }.

(** Every DLWH block carries its reference frames *)
Definition has_frames (o : dlwh) : Prop := exists fs, dh_frames o = map Some fs /\ len fs < max_words.

(** What the block constructors guarantee about the objects that are handed over. *)
Record ce_objects bm (i : ceIn) (mts : list Z) : Prop := {
  co_mtr : mt_NTR (ci_mtr i) = len mts /\ mt_lookup (ci_mtr i) mts /\ len mts < max_words;
  co_dlw : 0 <= dl_NR (ci_dlw i) < max_words /\ dl_NR (ci_dlw i) <= len (ty_mults (dl_tyr (ci_dlw i)))
           /\ Forall2 ty_ok (dl_frames (ci_dlw i)) (firstn (Z.to_nat (dl_NR (ci_dlw i))) (ty_mults (dl_tyr (ci_dlw i))));
  co_dnu : forall n, ci_dnu i = Some n -> match nu_prompt n with NuPoly v => pf_LNU bm v = Ok 1 | NuTab o => tf_LNU bm o = Ok 2 end;
  co_dlwh : forall ds, ci_dlwh i = Some ds -> Forall has_frames ds }.

(** * Lemmas *)

(** The frames and multiplicities of the TYR block of the table *)
Definition ce_frames (i : ceIn) (ntr : Z) : list frame := dl_frames (ci_dlw i) ++ repeat Laboratory (Z.to_nat (ntr - dl_NR (ci_dlw i))).
Definition ce_mults (i : ceIn) (ntr : Z) : list Z :=
  firstn (Z.to_nat (dl_NR (ci_dlw i))) (ty_mults (dl_tyr (ci_dlw i))) ++ repeat 0 (Z.to_nat (ntr - dl_NR (ci_dlw i))).
Definition ty_layout (fs : list frame) (ms : list Z) : list double := map (fun p => dbl (ty_word (fst p) (snd p))) (combine fs ms).

Lemma ce_TYR_ok bm i mts : ce_objects bm i mts -> let n := len mts in
  Forall2 ty_ok (ce_frames i n) (ce_mults i n) /\ len (ce_frames i n) = Z.max n (dl_NR (ci_dlw i))
  /\ exists t, ce_generateTYR bm (ci_dlw i) n = Ok t /\ content (ty_v t) (ty_layout (ce_frames i n) (ce_mults i n))
       /\ ty_shows bm t (ce_frames i n) (ce_mults i n).
Proof.
  intros [(_ & _ & B) (NR & NM & F) _ _] n. pose proof (len_nonneg mts). subst n.
  assert (F2 : Forall2 ty_ok (ce_frames i (len mts)) (ce_mults i (len mts))).
  { apply Forall2_app; [exact F|]. induction (Z.to_nat (len mts - dl_NR (ci_dlw i))); cbn [repeat]; constructor; auto. split; [lia|discriminate]. }
  assert (LF : len (ce_frames i (len mts)) = Z.max (len mts) (dl_NR (ci_dlw i))).
  { unfold ce_frames. rewrite len_app. pose proof (Forall2_len _ _ _ F) as L. rewrite firstn_length in L. unfold len at 1. rewrite L.
    unfold len in *. rewrite repeat_length. lia. }
  split; [exact F2|]. split; [exact LF|].
  unfold ce_generateTYR. destruct (Z.ltb_spec (len (ty_mults (dl_tyr (ci_dlw i)))) (dl_NR (ci_dlw i))); [lia|]. cbn [negb].
  fold (ce_frames i (len mts)). fold (ce_mults i (len mts)).
  pose proof (Forall2_len _ _ _ F2) as L2.
  assert (G : ty_generateXSS (ce_frames i (len mts)) (ce_mults i (len mts)) = Ok (ty_layout (ce_frames i (len mts)) (ce_mults i (len mts)))).
  { unfold ty_generateXSS. destruct (Z.eqb_spec (len (ce_frames i (len mts))) (len (ce_mults i (len mts)))); [|unfold len in *; lia].
    cbn [negb throw_if bind]. f_equal. apply ty_signs_ok. exact F2. }
  assert (Bw : len (ty_layout (ce_frames i (len mts)) (ce_mults i (len mts))) < max_words).
  { unfold ty_layout. rewrite len_map. unfold len. rewrite combine_length. unfold len in *. lia. }
  destruct (proj2 (ty_round_trip bm _ _ _ _ F2 G (content_has _ _ (own_content _ Bw))) Bw) as (t & T1 & T2 & T3). eauto.
Qed.

Lemma mapM_opt_value (fs : list frame) : mapM opt_value (map Some fs) = Ok fs.
Proof. induction fs as [|f r IH]; [reflexivity|]. cbn [map mapM opt_value bind]. rewrite IH. reflexivity. Qed.

Lemma ce_TYRH_ok bm ds : Forall has_frames ds ->
  exists ts, mapM (fun o => fs <- mapM opt_value (dh_frames o) ;; ty_of_frames bm fs) ds = Ok ts
    /\ Forall2 (fun o t => exists fs, dh_frames o = map Some fs /\ content (ty_v t) (ty_generateXSS_frames fs) /\ ty_shows bm t fs (repeat 1 (length fs))) ds ts.
Proof.
  induction 1 as [|o ds (fs & E & B) _ (ts & M & F)].
  - exists []. split; [reflexivity|constructor].
  - destruct (ty_of_frames_ok bm fs B) as (t & T & C & S). exists (t :: ts). cbn [mapM]. rewrite E, mapM_opt_value. cbn [bind]. rewrite T.
    cbn [bind]. rewrite M. split; [reflexivity|]. constructor; eauto.
Qed.

Lemma throw_if_cases b : throw_if b StdException = if b then Throw StdException else Ok tt.
Proof. destruct b; reflexivity. Qed.

Lemma ce_verify_spec bm i mts t th : ce_objects bm i mts -> ty_NTR t = Z.max (len mts) (dl_NR (ci_dlw i)) ->
  match ci_dlwh i, th with None, None => True | Some ds, Some ts => len ts = len ds | _, _ => False end ->
  (ce_consistent i mts -> ce_verify bm i t th = Ok tt) /\ (~ ce_consistent i mts -> ce_verify bm i t th = Throw StdException).
Proof.
  intros [(Nm & Lk & _) _ Dn _] Nt Hth.
  assert (X : ce_verify bm i t th = Ok tt /\ ce_consistent i mts \/ ce_verify bm i t th = Throw StdException /\ ~ ce_consistent i mts).
  2:{ split; intros C; destruct X as [[X1 X2]|[X1 X2]]; tauto. }
  unfold ce_verify. rewrite Nm, Nt. rewrite !throw_if_cases.
  destruct (negb (len mts =? mt_NTR (ci_lqr i)) || negb (len mts =? Z.max (len mts) (dl_NR (ci_dlw i))) || negb (len mts =? bl_n (ci_sig i))) eqn:E1; cbn [bind].
  { right. split; [reflexivity|]. intros [H1 H2 H3]. lia. }
  destruct (negb (ab_nr (ci_ang i) =? ab_nr (ci_ang i)) || negb (ab_nr (ci_ang i) =? dl_NR (ci_dlw i))) eqn:E2; cbn [bind].
  { right. split; [reflexivity|]. intros [H1 H2 H3 H4]. lia. }
  assert (exists b, mt_hasMT (ci_mtr i) 18 = Ok b /\ (b = true <-> In 18 mts)) as (b & Eb & Hb).
  { destruct (in_dec Z.eq_dec 18 mts) as [H|H].
    - exists true. split; [apply (proj1 Lk); exact H|tauto].
    - exists false. split; [apply (proj2 Lk); exact H|split; [discriminate|tauto]]. }
  rewrite Eb. cbn [bind]. rewrite ?throw_if_cases.
  destruct (b && negb (given (ci_nu i))) eqn:E3; cbn [bind].
  { right. split; [reflexivity|]. intros [_ _ _ _ H _ _ _]. destruct b; [|discriminate]. apply H; [tauto|]. destruct (ci_nu i); [discriminate|reflexivity]. }
  assert (Hnu : In 18 mts -> ci_nu i <> None).
  { intros H. apply Hb in H. subst b. destruct (ci_nu i); [discriminate|]. discriminate. }
  rewrite ?throw_if_cases.
  match goal with |- context [if ?c then Throw StdException else Ok tt] => destruct c eqn:E4 end; cbn [bind].
  { right. split; [reflexivity|]. intros [_ _ _ _ _ H _ _]. unfold none in H. destruct H as [(A1 & A2 & A3 & A4 & A5 & A6)|(g & m & s & a & d & y & A1 & A2 & A3 & A4 & A5 & A6 & _)]; rewrite A1, A2, A3, A4, A5, A6 in E4; discriminate. }
  set (PH := (none (ci_gpd i) /\ none (ci_mtrp i) /\ none (ci_sigp i) /\ none (ci_andp i) /\ none (ci_dlwp i) /\ none (ci_yp i))
    \/ exists g m s a d y, ci_gpd i = Some g /\ ci_mtrp i = Some m /\ ci_sigp i = Some s /\ ci_andp i = Some a /\ ci_dlwp i = Some d /\ ci_yp i = Some y
         /\ ab_nr a = mt_NTR m /\ dh_NR d = mt_NTR m).
  match goal with |- context [if given (ci_gpd i) then ?c else Ok tt] =>
    assert (P : (if given (ci_gpd i) then c else Ok tt) = Ok tt /\ PH \/ (if given (ci_gpd i) then c else Ok tt) = Throw StdException /\ ~ PH) end.
  { clear - E4. subst PH. unfold none. destruct (ci_gpd i) as [g|], (ci_mtrp i) as [m|], (ci_sigp i) as [s|], (ci_andp i) as [a|], (ci_dlwp i) as [d|], (ci_yp i) as [y|]; try discriminate.
    - cbn [given or0]. rewrite ?throw_if_cases. destruct (negb (mt_NTR m =? ab_nr a) || negb (mt_NTR m =? dh_NR d)) eqn:E.
      + right. split; [reflexivity|]. intros [(? & _)|(g' & m' & s' & a' & d' & y' & ? & X1 & ? & X2 & X3 & ? & H1 & H2)]; [discriminate|].
        injection X1 as <-. injection X2 as <-. injection X3 as <-. lia.
      + left. split; [reflexivity|]. right. exists g, m, s, a, d, y. repeat (split; [reflexivity|]). split; lia.
    - left. split; [reflexivity|]. left. repeat split. }
  destruct P as [[-> HPH]|[-> HPH]]; cbn [bind].
  2:{ right. split; [reflexivity|]. intros [_ _ _ _ _ H _ _]. exact (HPH H). }
  clear E4.
  set (DE := (none (ci_dnu i) /\ none (ci_bdd i) /\ none (ci_dned i))
    \/ exists n b d, ci_dnu i = Some n /\ ci_bdd i = Some b /\ ci_dned i = Some d
         /\ (exists o, nu_prompt n = NuTab o) /\ nu_total n = None /\ dh_NR d = bd_NPCR b).
  match goal with |- (?x = _ /\ _) \/ _ => match x with bind ?p ?k => set (K := k); set (Q := p) end end.
  assert (Hq : Q = Ok tt /\ (forall n, ci_dnu i = Some n -> (exists o, nu_prompt n = NuTab o) /\ nu_total n = None) \/ Q = Throw StdException /\ ~ DE).
  { subst Q DE. clear - Dn. destruct (ci_dnu i) as [n|].
    2:{ left. split; [reflexivity|discriminate]. }
    specialize (Dn n eq_refl). rewrite ?throw_if_cases. unfold nu_both. destruct (nu_total n) eqn:Et.
    - right. split; [reflexivity|]. unfold none. intros [(? & _)|(n' & b & d & X & _ & _ & _ & Y & _)]; [discriminate|]. injection X as <-. congruence.
    - cbn [bind]. destruct (nu_prompt n) as [v|o] eqn:Ep; cbn [nud_LNU]; rewrite Dn; cbn [bind]; rewrite ?throw_if_cases.
      + right. split; [reflexivity|]. unfold none. intros [(? & _)|(n' & b & d & X & _ & _ & (o & Y) & _)]; [discriminate|]. injection X as <-. congruence.
      + left. split; [reflexivity|]. intros n' X. injection X as <-. eauto. }
  destruct Hq as [[-> Hq]|[-> Hq]]; cbn [bind].
  2:{ right. split; [reflexivity|]. intros [_ _ _ _ _ _ H _]. exact (Hq H). }
  subst K. cbn beta. rewrite ?throw_if_cases.
  match goal with |- context [if ?c then Throw StdException else Ok tt] => destruct c eqn:E5 end; cbn [bind].
  { right. split; [reflexivity|]. intros [_ _ _ _ _ _ H _]. unfold none in H. destruct H as [(A1 & A2 & A3)|(n & b' & d & A1 & A2 & A3 & _)]; rewrite A1, A2, A3 in E5; discriminate. }
  match goal with |- context [if given (ci_bdd i) then ?c else Ok tt] =>
    assert (P : (if given (ci_bdd i) then c else Ok tt) = Ok tt /\ DE \/ (if given (ci_bdd i) then c else Ok tt) = Throw StdException /\ ~ DE) end.
  { subst DE. clear - E5 Hq. unfold none. destruct (ci_dnu i) as [n|], (ci_bdd i) as [b|], (ci_dned i) as [d|]; try discriminate.
    - cbn [given or0]. rewrite ?throw_if_cases. destruct (negb (bd_NPCR b =? bd_NPCR b) || negb (bd_NPCR b =? dh_NR d)) eqn:E.
      + right. split; [reflexivity|]. intros [(? & _)|(n' & b' & d' & ? & X1 & X2 & _ & _ & H2)]; [discriminate|].
        injection X1 as <-. injection X2 as <-. lia.
      + left. split; [reflexivity|]. right. exists n, b, d. repeat (split; [reflexivity|]). destruct (Hq n eq_refl) as [Q1 Q2]. split; [exact Q1|]. split; [exact Q2|]. lia.
    - left. split; [reflexivity|]. left. repeat split. }
  destruct P as [[-> HDE]|[-> HDE]]; cbn [bind].
  2:{ right. split; [reflexivity|]. intros [_ _ _ _ _ _ H _]. exact (HDE H). }
  clear E5 Hq. rewrite ?throw_if_cases.
  match goal with |- context [bind (if ?c then Throw StdException else Ok tt) _] => destruct c eqn:E6 end; cbn [bind].
  { right. split; [reflexivity|]. intros [_ _ _ _ _ _ _ H]. unfold none in H.
    destruct H as [(A1 & A2 & A3 & A4 & A5 & A6 & A7)|(p & h & m & s & a & d & y & A1 & A2 & A3 & A4 & A5 & A6 & A7 & _)]; rewrite A1, A2, A3, A4, A5, A6, A7 in E6; rewrite A6 in Hth;
      destruct th; try contradiction; discriminate. }
  destruct (ci_ptype i) as [p|] eqn:F1, (ci_hpd i) as [h|] eqn:F2, (ci_mtrh i) as [m|] eqn:F3, (ci_sigh i) as [s|] eqn:F4, (ci_andh i) as [a|] eqn:F5,
    (ci_dlwh i) as [d|] eqn:F6, th as [ts|], (ci_yh i) as [y|] eqn:F7; try discriminate E6; try contradiction.
  - cbn [given or0]. rewrite ?throw_if_cases. clear E6.
    destruct (negb (mt_NTR p =? len h) || negb (mt_NTR p =? len m) || negb (mt_NTR p =? len ts) || negb (mt_NTR p =? len s) || negb (mt_NTR p =? len a)
      || negb (mt_NTR p =? len d) || negb (mt_NTR p =? len y)) eqn:E.
    + right. split; [reflexivity|]. intros [_ _ _ _ _ _ _ H]. unfold none in H.
      rewrite F1, F2, F3, F4, F5, F6, F7 in H. destruct H as [(? & _)|(p' & h' & m' & s' & a' & d' & y' & X1 & X2 & X3 & X4 & X5 & X6 & X7 & X8)]; [discriminate|].
      injection X1 as <-. injection X2 as <-. injection X3 as <-. injection X4 as <-. injection X5 as <-. injection X6 as <-. injection X7 as <-.
      clear - X8 E Hth. lia.
    + left. split; [reflexivity|]. constructor; try assumption; try (clear - E1 E2; lia).
      right. exists p, h, m, s, a, d, y. repeat (split; [assumption|]). clear - E Hth. lia.
  - cbn [given]. left. split; [reflexivity|]. constructor; try assumption; try (clear - E1 E2; lia).
    left. unfold none. repeat split; assumption.
Qed.

Lemma ce_rejected bm z a s zaid i mts : ce_objects bm i mts -> ~ ce_consistent i mts -> ce_of bm z a s zaid i = Throw StdException.
Proof.
  intros O N. destruct (ce_TYR_ok bm i mts O) as (_ & L & t & T & _ & S).
  unfold ce_of, ce_generateData. rewrite (proj1 (co_mtr _ _ _ O)), T. cbn [bind].
  assert (exists th, ce_generateTYRH bm (ci_dlwh i) = Ok th /\ match ci_dlwh i, th with None, None => True | Some ds, Some ts => len ts = len ds | _, _ => False end) as (th & E & H).
  { unfold ce_generateTYRH. pose proof (co_dlwh _ _ _ O) as D. destruct (ci_dlwh i) as [ds|]; [|exists None; split; [reflexivity|exact I]].
    destruct (ce_TYRH_ok bm ds (D _ eq_refl)) as (ts & -> & F). cbn [bind]. eexists. split; [reflexivity|]. cbn. pose proof (Forall2_len _ _ _ F). unfold len. lia. }
  rewrite E. cbn [bind]. destruct S as [SN _].
  rewrite (proj2 (ce_verify_spec bm i mts t th O ltac:(rewrite SN; exact L) H) N). reflexivity.
Qed.
