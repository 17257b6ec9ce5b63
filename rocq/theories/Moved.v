(** Where a block stands: views moved to another place of a larger vector.  Lemmas for C47, one per function that reads words. *)
From Coq Require Import ZArith Bool List Lia.
From Coq Require Import ZifyBool ZifyNat.
From Verif Require Import Float Base ColumnData TabulatedData BlockWithLocators Angular AngularBlock DistributionData EnergyLaws EnergyAngle SimpleLaws EnergyDist MultiDist FrameBlock EnergyBlocks DlwBlock ReactionNumbers NuBlock ElectronBlocks AtomicBlocks ThermalBlocks.
Import ListNotations.
Open Scope Z_scope.

(** The outcome [m'] is that of [m] with [f] applied to what is returned, unless [m] is undefined *)
Definition rle {A B} (f : A -> B) (m : outcome A) (m' : outcome B) : Prop :=
  match m with Ok a => m' = Ok (f a) | Throw e => m' = Throw e | UB => True end.
Definition same {A} : outcome A -> outcome A -> Prop := rle (fun x => x).

Lemma rle_refl {A} (m : outcome A) : rle (fun x => x) m m.
Proof. destruct m; cbn; auto. Qed.
Lemma rle_ok {A B} (f : A -> B) a b : b = f a -> rle f (Ok a) (Ok b).
Proof. intros ->. reflexivity. Qed.
Lemma rle_bind {A A' B B'} (f : A -> A') (g : B -> B') m m' F G : rle f m m' -> (forall a, rle g (F a) (G (f a))) -> rle g (bind m F) (bind m' G).
Proof. intros H1 H2. destruct m; cbn [rle bind] in *; [|subst; reflexivity|exact Logic.I]. subst. cbn [bind]. apply H2. Qed.
Lemma rle_mapM {A B B'} (f : B -> B') (F : A -> outcome B) G l : (forall a, rle f (F a) (G a)) -> rle (map f) (mapM F l) (mapM G l).
Proof.
  intros H. induction l as [|a l IH]; cbn [mapM]; [reflexivity|]. eapply rle_bind; [apply H|]. intros b. eapply rle_bind; [exact IH|]. intros bs. reflexivity.
Qed.
Lemma rle_mapM_id {A B} (F : A -> outcome B) G l : (forall a, rle (fun x => x) (F a) (G a)) -> rle (fun x => x) (mapM F l) (mapM G l).
Proof.
  intros H. induction l as [|a l IH]; cbn [mapM]; [reflexivity|]. eapply rle_bind; [apply H|]. intros b. eapply rle_bind; [exact IH|]. intros bs. reflexivity.
Qed.

Create HintDb frame discriminated.
#[export] Hint Constants Opaque : frame.
#[export] Hint Transparent tq_obj ae_obj ea_obj : frame.

Section Moved.
  Variables pre post : list double.

  Definition mv (v : view) : view := View (pre ++ buf v ++ post) (vbeg v + len pre) (vend v + len pre).
  Definition shift (p : Z) : Z := p + len pre.

  Lemma buf_mv v : buf (mv v) = pre ++ buf v ++ post. Proof. reflexivity. Qed.
  Lemma vbeg_mv v : vbeg (mv v) = vbeg v + len pre. Proof. reflexivity. Qed.
  Lemma vend_mv v : vend (mv v) = vend v + len pre. Proof. reflexivity. Qed.
  Lemma vlen_mv v : vlen (mv v) = vlen v. Proof. unfold vlen. rewrite vbeg_mv, vend_mv. f_equal. lia. Qed.
  Lemma vempty_mv v : vempty (mv v) = vempty v. Proof. unfold vempty. rewrite vbeg_mv, vend_mv. lia. Qed.

  Lemma fr_deref b i i' : i' = shift i -> rle (fun x => x) (deref b i) (deref (pre ++ b ++ post) i').
  Proof.
    intros ->. unfold deref, shift. destruct (Z.leb_spec 0 i) as [H|H]; [|exact Logic.I]. replace (0 <=? i + len pre) with true by (pose proof (len_nonneg pre); lia).
    replace (Z.to_nat (i + len pre)) with (length pre + Z.to_nat i)%nat by (unfold len; lia). rewrite nth_error_app2 by lia.
    replace (length pre + Z.to_nat i - length pre)%nat with (Z.to_nat i) by lia. destruct (nth_error b (Z.to_nat i)) eqn:E; [|exact Logic.I].
    rewrite nth_error_app1 by (apply nth_error_Some; congruence). rewrite E. reflexivity.
  Qed.
  Lemma fr_read_range b l r l' r' : l' = shift l -> r' = shift r -> rle (fun x => x) (read_range b l r) (read_range (pre ++ b ++ post) l' r').
  Proof.
    intros -> ->. unfold read_range, shift. destruct ((0 <=? l) && (l <=? r) && (r <=? len b)) eqn:E; [|exact Logic.I].
    rewrite !len_app. pose proof (len_nonneg pre). pose proof (len_nonneg post).
    match goal with |- rle _ _ (if ?b then _ else _) => replace b with true by lia end. cbn [rle]. f_equal. unfold slice.
    replace (r + len pre - (l + len pre)) with (r - l) by lia. replace (Z.to_nat (l + len pre)) with (length pre + Z.to_nat l)%nat by (unfold len; lia).
    rewrite skipn_app. rewrite skipn_all2 by lia. replace (length pre + Z.to_nat l - length pre)%nat with (Z.to_nat l) by lia. cbn [app].
    rewrite skipn_app, firstn_app. unfold len in *. rewrite skipn_length. replace (Z.to_nat (r - l) - (length b - Z.to_nat l))%nat with 0%nat by lia. cbn [firstn]. rewrite app_nil_r. reflexivity.
  Qed.
  Lemma fr_iter bm v i v' i' : v' = mv v -> i' = i -> rle shift (iter bm v i) (iter bm v' i').
  Proof.
    intros -> ->. unfold iter. rewrite vlen_mv, vbeg_mv. eapply rle_bind; [apply rle_refl|]. intros _. apply rle_ok. unfold shift. lia.
  Qed.
  Lemma fr_xss bm v i v' i' : v' = mv v -> i' = i -> rle (fun x => x) (xss bm v i) (xss bm v' i').
  Proof.
    intros -> ->. unfold xss. rewrite vlen_mv, vbeg_mv, buf_mv. eapply rle_bind; [apply rle_refl|]. intros _. apply fr_deref. unfold shift. lia.
  Qed.
  Lemma fr_vall v v' : v' = mv v -> rle (fun x => x) (xss_all v) (xss_all v').
  Proof. intros ->. unfold xss_all. rewrite vbeg_mv, vend_mv, buf_mv. apply fr_read_range; unfold shift; lia. Qed.
  Lemma fr_verify v n v' n' : v' = mv v -> n' = n -> rle (fun x => x) (verify_at_least v n) (verify_at_least v' n').
  Proof. intros -> ->. unfold verify_at_least. rewrite vbeg_mv, vend_mv. replace (vend v + len pre - (vbeg v + len pre)) with (vend v - vbeg v) by lia. apply rle_refl. Qed.

  (** ** Objects *)
  Definition mv_cd (c : columnData) : columnData := ColumnData (mv (cd_v c)) (cd_nc c).
  Definition mv_ad (a : arrayData) : arrayData := ArrayData (mv (ad_v a)) (ad_n a) (ad_m a).
  Definition mv_td (o : tabulatedData) : tabulatedData := TabulatedData (mv (td_v o)) (mv_cd (td_interp o)) (mv_cd (td_data o)).
  Definition mv_ev (o : evaporation) : evaporation := Evaporation (mv (ev_v o)) (mv_td (ev_tab o)).
  Definition mv_ge (o : generalEvaporation) : generalEvaporation := GeneralEvaporation (mv (ge_v o)) (mv_td (ge_tab o)) (mv_cd (ge_binsd o)).
  Definition mv_wa (o : watt) : watt := Watt (mv (wa_v o)) (mv_td (wa_a o)) (mv_td (wa_b o)).
  Definition mv_pt (o : prefixedTabulated) : prefixedTabulated := PrefixedTabulated (mv (pt_v o)) (mv_td (pt_tab o)).
  Definition mv_dp (o : precursorData) : precursorData := PrecursorData (dp_number o) (mv_pt (dp_tab o)).
  Definition mv_bl {D} (f : D -> D) (o : blockWithLocators D) : blockWithLocators D :=
    BlockWL (mv (bl_v o)) (bl_n o) (bl_locator o) (shift (bl_iter o)) (map f (bl_data o)).
  Definition mv_pp (o : photonProduction) : photonProduction := match o with PPCrossSection v => PPCrossSection (mv v) | PPMultiplicity t => PPMultiplicity (mv_pt t) end.
  Definition mv_ang (o : angular view) : angular view := match o with AIso e => AIso e | AEqui e x => AEqui e (mv x) | ATab e x => ATab e (mv x) end.
  Definition mv_an (o : angularData) : angularData := AngularData (an_locb o) (mv (an_v o)) (mv_cd (an_values o)) (map mv_ang (an_dists o)).
  Definition mv_adist {T} (f : T -> T) (o : adist T) : adist T := match o with DIso => DIso | DElse => DElse | DData x => DData (f x) end.
  Definition mv_ab (o : angularBlock) : angularBlock := AngularBlock (mv (ab_v o)) (ab_nr o) (shift (ab_iter o)) (map (mv_adist mv_an) (ab_data o)) (ab_zero o).
  Definition mv_dd {D} (f : D -> D) (o : distributionData D) : distributionData D :=
    DistData (mv (dd_v o)) (dd_locb o) (mv_cd (dd_interp o)) (mv_cd (dd_values o)) (map f (dd_dists o)).
  Definition mv_di {D} (f : D -> D) (o : distributionDataI D) : distributionDataI D :=
    DistDataI (mv (di_v o)) (di_locb o) (mv_cd (di_values o)) (map f (di_dists o)).
  Definition mv_tq (o : double * view) : double * view := (fst o, mv (snd o)).
  Definition mv_ae (o : ae_obj) : ae_obj := (fst o, mv_di mv_tq (snd o)).
  Definition mv_tw (o : tw_obj) : tw_obj := TWObj (two_energy o) (two_prob o) (two_cumul o) (mv (two_v o)).
  Definition mv_ea (o : ea_obj) : ea_obj := (fst o, mv_di mv_tw (snd o)).
  Definition mv_two (o : SimpleLaws.two) : SimpleLaws.two := SimpleLaws.Two (mv (two_v_ o)) (two_emin o) (two_emax o).
  Definition mv_eq (o : equi) : equi := Equi (mv (eq_v o)) (mv_cd (eq_interp o)) (mv_cd (eq_energies_ o)) (map mv_tq (eq_bins o)).
  Definition mv_ed (o : ed_obj) : ed_obj :=
    match o with
    | OEqui o => OEqui (mv_eq o) | ODiscrete o => ODiscrete (mv_two o) | OLevel o => OLevel (mv_two o) | OTwoBody o => OTwoBody (mv_two o) | ONBody o => ONBody (mv_two o)
    | OOutgoing o => OOutgoing (mv_dd mv_tq o) | OKalbach o => OKalbach (mv_dd mv_tq o)
    | OEnergyAngle o => OEnergyAngle (mv_dd mv_ea o) | OAngleEnergy o => OAngleEnergy (mv_dd mv_ae o)
    | OGeneralEvap o => OGeneralEvap (mv_ge o) | OMaxwell o => OMaxwell (mv_ev o) | OEvaporation o => OEvaporation (mv_ev o) | OWatt o => OWatt (mv_wa o)
    end.
  Definition mv_mu (o : multi) : multi := MultiD (mv (mu_v o)) (mu_locb o) (map mv_td (mu_probs o)) (map mv_ed (mu_dists o)).
  Definition mv_en (o : en_obj) : en_obj := match o with Single o => Single (mv_ed o) | Multi m => Multi (mv_mu m) | Undefined => Undefined end.
  Definition mv_ty (o : tyr) : tyr := Tyr (mv (ty_v o)) (ty_ntr o) (ty_frames o) (ty_mults o).
  Definition mv_dh (o : dlwh) : dlwh := Dlwh (mv_bl mv_en (dh_block o)) (dh_frames o).
  Definition mv_mo (o : mult_obj) : mult_obj := match o with MuNum n => MuNum n | MuTab t => MuTab (mv_td t) end.
  Definition mv_dl (o : dlw) : dlw := Dlw (mv (dl_v o)) (dl_nr o) (mv_ty (dl_tyr o)) (map mv_en (dl_data o)) (map mv_mo (dl_mults o)) (dl_frames o).
  Definition mv_nt (o : ntro) : ntro := Ntro (mv (nt_v o)) (nt_ntype o).
  (** the polynomial of an empty block is not in the vector *)
  Definition mv_nud (o : nu_data) : nu_data :=
    match o with NuPoly v => NuPoly (match buf v with [] => v | _ => mv v end) | NuTab t => NuTab (mv_pt t) end.
  Definition mv_nu (o : nu) : nu := Nu (mv (nu_v o)) (mv_nud (nu_prompt o)) (option_map mv_nud (nu_total o)).
  Definition mv_tb (o : ptable) : ptable := PTable (mv_ad (tb_a o)) (tb_e o).
  Definition mv_un (o : unr) : unr := Unr (mv (un_v o)) (map mv_tb (un_data o)).
  Definition mv_bd (o : bdd) : bdd := Bdd (mv (bd_v o)) (bd_npcr o) (map mv_dp (bd_data o)).
  Definition mv_el (o : electronDatum) : electronDatum := ElectronDatum (mv_ad (ed_a o)) (ed_energy o).
  Definition mv_eb (o : electronBlock) : electronBlock := ElectronBlock (mv (eb_v o)) (eb_n o) (mv_ad (eb_info o)) (map mv_el (eb_data o)).
  Definition mv_ji (o : jinc) : jinc := Jinc (mv_ad (ji_a o)) (ji_momentum_ o).
  Definition mv_cos (o : cosData) : cosData := match o with CDisc n v => CDisc n (mv v) | CProb n v => CProb n (mv v) end.
  Definition mv_it (o : itxe) : itxe := Itxe (it_ifeng o) (it_nc o) (it_nieb o) (it_ne o) (it_locb o) (mv (it_v o)) (map (map mv_cos) (it_data o)).

  Ltac mvs :=
    cbn [fst snd option_map
         mv_cd cd_v cd_nc mv_ad ad_v ad_n ad_m mv_td td_v td_interp td_data mv_ev ev_v ev_tab mv_ge ge_v ge_tab ge_binsd mv_wa wa_v wa_a wa_b
         mv_pt pt_v pt_tab mv_dp dp_number dp_tab mv_bl bl_v bl_n bl_locator bl_iter bl_data mv_pp mv_ang mv_an an_locb an_v an_values an_dists
         mv_adist mv_ab ab_v ab_nr ab_iter ab_data ab_zero mv_dd dd_v dd_locb dd_interp dd_values dd_dists mv_di di_v di_locb di_values di_dists
         mv_tq mv_ae mv_tw two_energy two_prob two_cumul two_v mv_ea mv_two two_v_ two_emin two_emax mv_eq eq_v eq_interp eq_energies_ eq_bins
         mv_ed mv_mu mu_v mu_locb mu_probs mu_dists mv_en mv_ty ty_v ty_ntr ty_frames ty_mults mv_dh dh_block dh_frames mv_mo
         mv_dl dl_v dl_nr dl_tyr dl_data dl_mults dl_frames mv_nt nt_v nt_ntype mv_nu nu_v nu_prompt nu_total mv_tb tb_a tb_e
         mv_un un_v un_data mv_bd bd_v bd_npcr bd_data mv_el ed_a ed_energy mv_eb eb_v eb_n eb_info eb_data mv_ji ji_a ji_momentum_ mv_cos cos_v
         mv_it it_ifeng it_nc it_nieb it_ne it_locb it_v it_data].
  Ltac nrm := mvs; rewrite ?vlen_mv, ?vbeg_mv, ?vend_mv, ?buf_mv, ?vempty_mv; unfold shift;
    repeat match goal with |- context [?a + len pre - (?b + len pre)] => replace (a + len pre - (b + len pre)) with (a - b) by lia end;
    cbv beta.
  Ltac ceq := match goal with |- ?a = ?b => constr_eq a b; reflexivity end.
  Ltac zeq := cbv beta; mvs; unfold shift, adv; repeat first [ceq | lia | progress f_equal].
  Ltac mveq := cbv beta; mvs; unfold shift; first [ceq | reflexivity | unfold mv, sub, adv; cbn [buf vbeg vend]; f_equal; lia | unfold adv; lia | rewrite ?map_map; f_equal; lia | solve [unfold mv_tq, mv, sub, adv; cbn [buf vbeg vend fst snd]; repeat first [ceq | lia | progress f_equal]] ].
  Hint Extern 1 (_ = mv _) => mveq : frame.
  Hint Extern 2 (@eq Z _ _) => solve [zeq] : frame.
  Hint Extern 1 (_ = shift _) => mveq : frame.
  Hint Resolve fr_deref fr_read_range fr_iter fr_xss fr_vall fr_verify : frame.

  Lemma fr_at {A} (f : A -> A) l i i' : i' = i -> rle f (at_ l i) (at_ (map f l) i').
  Proof. intros ->. unfold at_. rewrite nth_error_map. destruct (nth_error l _); reflexivity. Qed.
  Lemma fr_check bm m m' : rle (fun x => x) m m' -> rle (fun x => x) (check bm m) (check bm m').
  Proof. intros H. unfold check. destruct (debug bm); [exact H|reflexivity]. Qed.
  Hint Resolve fr_at fr_check : frame.
  Ltac fr_step :=
    match goal with
    | |- forall _, _ => intro
    | |- rle _ UB _ => exact Logic.I
    | |- rle _ (Throw _) (Throw _) => reflexivity
    | |- rle _ ?a ?b => constr_eq a b; apply rle_refl
    | |- rle _ _ _ => solve [eauto 3 with frame nocore]
    | |- rle _ (Ok _) (Ok _) => first [apply rle_ok; mveq | apply (rle_ok (fun x => x)); mveq | apply (rle_ok (shift)); mveq]
    | |- rle _ (bind _ _) (bind _ _) => eapply rle_bind; [ | intro ]
    | |- rle _ (mapM _ _) (mapM _ _) => first [apply rle_mapM_id; intro; solve [fr] | apply rle_mapM; intro]
    | |- rle _ (match ?x with _ => _ end) (match ?y with _ => _ end) => constr_eq x y; destruct x
    | |- rle _ _ _ => progress (cbv beta zeta; nrm)
    end
  with fr := repeat fr_step; repeat fr_step.

  Lemma fr_ixss : forall bm (x1 : view) (x1' : view) (x2 : Z) (x2' : Z), x1' = mv x1 -> x2' = x2 -> rle (fun x => x) (Base.ixss bm x1 x2) (Base.ixss bm x1' x2').
  Proof. intros; subst; unfold Base.ixss; fr. Qed.
  Hint Resolve fr_ixss : frame.

  Lemma fr_ixss_size : forall bm (x1 : view) (x1' : view) (x2 : Z) (x2' : Z), x1' = mv x1 -> x2' = x2 -> rle (fun x => x) (Base.ixss_size bm x1 x2) (Base.ixss_size bm x1' x2').
  Proof. intros; subst; unfold Base.ixss_size; fr. Qed.
  Hint Resolve fr_ixss_size : frame.

  Lemma fr_xssr : forall bm (x1 : view) (x1' : view) (x2 : Z) (x2' : Z) (x3 : Z) (x3' : Z), x1' = mv x1 -> x2' = x2 -> x3' = x3 -> rle (fun x => x) (Base.xssr bm x1 x2 x3) (Base.xssr bm x1' x2' x3').
  Proof. intros; subst; unfold Base.xssr; fr. Qed.
  Hint Resolve fr_xssr : frame.

  Lemma fr_ixssr : forall bm (x1 : view) (x1' : view) (x2 : Z) (x2' : Z) (x3 : Z) (x3' : Z), x1' = mv x1 -> x2' = x2 -> x3' = x3 -> rle (fun x => x) (Base.ixssr bm x1 x2 x3) (Base.ixssr bm x1' x2' x3').
  Proof. intros; subst; unfold Base.ixssr; fr. Qed.
  Hint Resolve fr_ixssr : frame.

  Lemma fr_cd_verifySize : forall (x0 : view) (x0' : view) (x1 : Z) (x1' : Z) (x2 : Z) (x2' : Z), x0' = mv x0 -> x1' = x1 -> x2' = x2 -> rle (fun x => x) (ColumnData.cd_verifySize x0 x1 x2) (ColumnData.cd_verifySize x0' x1' x2').
  Proof. intros; subst; unfold ColumnData.cd_verifySize; fr. Qed.
  Hint Resolve fr_cd_verifySize : frame.

  Lemma fr_cd_make : forall (x0 : view) (x0' : view) (x1 : Z) (x1' : Z), x0' = mv x0 -> x1' = x1 -> rle mv_cd (ColumnData.cd_make x0 x1) (ColumnData.cd_make x0' x1').
  Proof. intros; subst; unfold ColumnData.cd_make; fr. Qed.
  Hint Resolve fr_cd_make : frame.

  Lemma fr_cd_N : forall bm (x1 : columnData), rle (fun x => x) (ColumnData.cd_N bm x1) (ColumnData.cd_N bm (mv_cd x1)).
  Proof. intros; subst; unfold ColumnData.cd_N; fr. Qed.
  Hint Resolve fr_cd_N : frame.

  Lemma fr_cd_column : forall bm (x1 : columnData) (x2 : Z) (x2' : Z), x2' = x2 -> rle (fun x => x) (ColumnData.cd_column bm x1 x2) (ColumnData.cd_column bm (mv_cd x1) x2').
  Proof. intros; subst; unfold ColumnData.cd_column; fr. Qed.
  Hint Resolve fr_cd_column : frame.

  Lemma fr_cd_value : forall bm (x1 : columnData) (x2 : Z) (x2' : Z) (x3 : Z) (x3' : Z), x2' = x2 -> x3' = x3 -> rle (fun x => x) (ColumnData.cd_value bm x1 x2 x3) (ColumnData.cd_value bm (mv_cd x1) x2' x3').
  Proof. intros; subst; unfold ColumnData.cd_value; fr. Qed.
  Hint Resolve fr_cd_value : frame.

  Lemma fr_ad_verifySize : forall (x0 : view) (x0' : view) (x1 : Z) (x1' : Z) (x2 : Z) (x2' : Z), x0' = mv x0 -> x1' = x1 -> x2' = x2 -> rle (fun x => x) (ColumnData.ad_verifySize x0 x1 x2) (ColumnData.ad_verifySize x0' x1' x2').
  Proof. intros; subst; unfold ColumnData.ad_verifySize; fr. Qed.
  Hint Resolve fr_ad_verifySize : frame.

  Lemma fr_ad_make : forall (x0 : view) (x0' : view) (x1 : Z) (x1' : Z) (x2 : Z) (x2' : Z), x0' = mv x0 -> x1' = x1 -> x2' = x2 -> rle mv_ad (ColumnData.ad_make x0 x1 x2) (ColumnData.ad_make x0' x1' x2').
  Proof. intros; subst; unfold ColumnData.ad_make; fr. Qed.
  Hint Resolve fr_ad_make : frame.

  Lemma fr_ad_verifyIndex : forall (x0 : arrayData) (x1 : Z) (x1' : Z), x1' = x1 -> rle (fun x => x) (ColumnData.ad_verifyIndex x0 x1) (ColumnData.ad_verifyIndex (mv_ad x0) x1').
  Proof. intros; subst; unfold ColumnData.ad_verifyIndex; fr. Qed.
  Hint Resolve fr_ad_verifyIndex : frame.

  Lemma fr_ad_verifyIndex2 : forall (x0 : arrayData) (x1 : Z) (x1' : Z) (x2 : Z) (x2' : Z), x1' = x1 -> x2' = x2 -> rle (fun x => x) (ColumnData.ad_verifyIndex2 x0 x1 x2) (ColumnData.ad_verifyIndex2 (mv_ad x0) x1' x2').
  Proof. intros; subst; unfold ColumnData.ad_verifyIndex2; fr. Qed.
  Hint Resolve fr_ad_verifyIndex2 : frame.

  Lemma fr_ad_dvalue : forall bm (x1 : arrayData) (x2 : Z) (x2' : Z) (x3 : Z) (x3' : Z), x2' = x2 -> x3' = x3 -> rle (fun x => x) (ColumnData.ad_dvalue bm x1 x2 x3) (ColumnData.ad_dvalue bm (mv_ad x1) x2' x3').
  Proof. intros; subst; unfold ColumnData.ad_dvalue; fr. Qed.
  Hint Resolve fr_ad_dvalue : frame.

  Lemma fr_ad_ivalue : forall bm (x1 : arrayData) (x2 : Z) (x2' : Z) (x3 : Z) (x3' : Z), x2' = x2 -> x3' = x3 -> rle (fun x => x) (ColumnData.ad_ivalue bm x1 x2 x3) (ColumnData.ad_ivalue bm (mv_ad x1) x2' x3').
  Proof. intros; subst; unfold ColumnData.ad_ivalue; fr. Qed.
  Hint Resolve fr_ad_ivalue : frame.

  Lemma fr_ad_darray : forall bm (x1 : arrayData) (x2 : Z) (x2' : Z), x2' = x2 -> rle (fun x => x) (ColumnData.ad_darray bm x1 x2) (ColumnData.ad_darray bm (mv_ad x1) x2').
  Proof. intros; subst; unfold ColumnData.ad_darray; fr. Qed.
  Hint Resolve fr_ad_darray : frame.

  Lemma fr_ad_iarray : forall bm (x1 : arrayData) (x2 : Z) (x2' : Z), x2' = x2 -> rle (fun x => x) (ColumnData.ad_iarray bm x1 x2) (ColumnData.ad_iarray bm (mv_ad x1) x2').
  Proof. intros; subst; unfold ColumnData.ad_iarray; fr. Qed.
  Hint Resolve fr_ad_iarray : frame.

  Lemma fr_id_make : forall (x0 : view) (x0' : view), x0' = mv x0 -> rle mv_cd (ColumnData.id_make x0) (ColumnData.id_make x0').
  Proof. intros; subst; unfold ColumnData.id_make; fr. Qed.
  Hint Resolve fr_id_make : frame.

  Lemma fr_id_NB : forall bm (x1 : columnData), rle (fun x => x) (ColumnData.id_NB bm x1) (ColumnData.id_NB bm (mv_cd x1)).
  Proof. intros; subst; unfold ColumnData.id_NB; fr. Qed.
  Hint Resolve fr_id_NB : frame.

  Lemma fr_id_NBT : forall bm (x1 : columnData), rle (fun x => x) (ColumnData.id_NBT bm x1) (ColumnData.id_NBT bm (mv_cd x1)).
  Proof. intros; subst; unfold ColumnData.id_NBT; fr. Qed.
  Hint Resolve fr_id_NBT : frame.

  Lemma fr_id_INT : forall bm (x1 : columnData), rle (fun x => x) (ColumnData.id_INT bm x1) (ColumnData.id_INT bm (mv_cd x1)).
  Proof. intros; subst; unfold ColumnData.id_INT; fr. Qed.
  Hint Resolve fr_id_INT : frame.

  Lemma fr_td_generateBlocks : forall bm (x1 : view) (x1' : view), x1' = mv x1 -> rle mv_td (TabulatedData.td_generateBlocks bm x1) (TabulatedData.td_generateBlocks bm x1').
  Proof. intros; subst; unfold TabulatedData.td_generateBlocks; fr. Qed.
  Hint Resolve fr_td_generateBlocks : frame.

  Lemma fr_td_make : forall bm (x1 : view) (x1' : view), x1' = mv x1 -> rle mv_td (TabulatedData.td_make bm x1) (TabulatedData.td_make bm x1').
  Proof. intros; subst; unfold TabulatedData.td_make; fr. Qed.
  Hint Resolve fr_td_make : frame.

  Lemma fr_td_NB : forall bm (x1 : tabulatedData), rle (fun x => x) (TabulatedData.td_NB bm x1) (TabulatedData.td_NB bm (mv_td x1)).
  Proof. intros; subst; unfold TabulatedData.td_NB; fr. Qed.
  Hint Resolve fr_td_NB : frame.

  Lemma fr_td_NBT : forall bm (x1 : tabulatedData), rle (fun x => x) (TabulatedData.td_NBT bm x1) (TabulatedData.td_NBT bm (mv_td x1)).
  Proof. intros; subst; unfold TabulatedData.td_NBT; fr. Qed.
  Hint Resolve fr_td_NBT : frame.

  Lemma fr_td_INT : forall bm (x1 : tabulatedData), rle (fun x => x) (TabulatedData.td_INT bm x1) (TabulatedData.td_INT bm (mv_td x1)).
  Proof. intros; subst; unfold TabulatedData.td_INT; fr. Qed.
  Hint Resolve fr_td_INT : frame.

  Lemma fr_td_N : forall bm (x1 : tabulatedData), rle (fun x => x) (TabulatedData.td_N bm x1) (TabulatedData.td_N bm (mv_td x1)).
  Proof. intros; subst; unfold TabulatedData.td_N; fr. Qed.
  Hint Resolve fr_td_N : frame.

  Lemma fr_td_x : forall bm (x1 : tabulatedData), rle (fun x => x) (TabulatedData.td_x bm x1) (TabulatedData.td_x bm (mv_td x1)).
  Proof. intros; subst; unfold TabulatedData.td_x; fr. Qed.
  Hint Resolve fr_td_x : frame.

  Lemma fr_td_y : forall bm (x1 : tabulatedData), rle (fun x => x) (TabulatedData.td_y bm x1) (TabulatedData.td_y bm (mv_td x1)).
  Proof. intros; subst; unfold TabulatedData.td_y; fr. Qed.
  Hint Resolve fr_td_y : frame.

  Lemma fr_ev_generateBlocks : forall bm (x1 : view) (x1' : view), x1' = mv x1 -> rle mv_ev (TabulatedData.ev_generateBlocks bm x1) (TabulatedData.ev_generateBlocks bm x1').
  Proof. intros; subst; unfold TabulatedData.ev_generateBlocks; fr. Qed.
  Hint Resolve fr_ev_generateBlocks : frame.

  Lemma fr_ev_make : forall bm (x1 : view) (x1' : view), x1' = mv x1 -> rle mv_ev (TabulatedData.ev_make bm x1) (TabulatedData.ev_make bm x1').
  Proof. intros; subst; unfold TabulatedData.ev_make; fr. Qed.
  Hint Resolve fr_ev_make : frame.

  Lemma fr_ev_U : forall (x0 : evaporation), rle (fun x => x) (TabulatedData.ev_U x0) (TabulatedData.ev_U (mv_ev x0)).
  Proof. intros; subst; unfold TabulatedData.ev_U; fr. Qed.
  Hint Resolve fr_ev_U : frame.

  Lemma fr_ev_emin : forall bm (x1 : evaporation), rle (fun x => x) (TabulatedData.ev_emin bm x1) (TabulatedData.ev_emin bm (mv_ev x1)).
  Proof. intros; subst; unfold TabulatedData.ev_emin; fr. Qed.
  Hint Resolve fr_ev_emin : frame.

  Lemma fr_ev_emax : forall bm (x1 : evaporation), rle (fun x => x) (TabulatedData.ev_emax bm x1) (TabulatedData.ev_emax bm (mv_ev x1)).
  Proof. intros; subst; unfold TabulatedData.ev_emax; fr. Qed.
  Hint Resolve fr_ev_emax : frame.

  Lemma fr_ge_generateBlocks : forall bm (x1 : view) (x1' : view), x1' = mv x1 -> rle mv_ge (TabulatedData.ge_generateBlocks bm x1) (TabulatedData.ge_generateBlocks bm x1').
  Proof. intros; subst; unfold TabulatedData.ge_generateBlocks; fr. Qed.
  Hint Resolve fr_ge_generateBlocks : frame.

  Lemma fr_ge_make : forall bm (x1 : view) (x1' : view), x1' = mv x1 -> rle mv_ge (TabulatedData.ge_make bm x1) (TabulatedData.ge_make bm x1').
  Proof. intros; subst; unfold TabulatedData.ge_make; fr. Qed.
  Hint Resolve fr_ge_make : frame.

  Lemma fr_ge_NET : forall bm (x1 : generalEvaporation), rle (fun x => x) (TabulatedData.ge_NET bm x1) (TabulatedData.ge_NET bm (mv_ge x1)).
  Proof. intros; subst; unfold TabulatedData.ge_NET; fr. Qed.
  Hint Resolve fr_ge_NET : frame.

  Lemma fr_ge_numberBins : forall bm (x1 : generalEvaporation), rle (fun x => x) (TabulatedData.ge_numberBins bm x1) (TabulatedData.ge_numberBins bm (mv_ge x1)).
  Proof. intros; subst; unfold TabulatedData.ge_numberBins; fr. Qed.
  Hint Resolve fr_ge_numberBins : frame.

  Lemma fr_ge_bins : forall bm (x1 : generalEvaporation), rle (fun x => x) (TabulatedData.ge_bins bm x1) (TabulatedData.ge_bins bm (mv_ge x1)).
  Proof. intros; subst; unfold TabulatedData.ge_bins; fr. Qed.
  Hint Resolve fr_ge_bins : frame.

  Lemma fr_ge_emin : forall bm (x1 : generalEvaporation), rle (fun x => x) (TabulatedData.ge_emin bm x1) (TabulatedData.ge_emin bm (mv_ge x1)).
  Proof. intros; subst; unfold TabulatedData.ge_emin; fr. Qed.
  Hint Resolve fr_ge_emin : frame.

  Lemma fr_ge_emax : forall bm (x1 : generalEvaporation), rle (fun x => x) (TabulatedData.ge_emax bm x1) (TabulatedData.ge_emax bm (mv_ge x1)).
  Proof. intros; subst; unfold TabulatedData.ge_emax; fr. Qed.
  Hint Resolve fr_ge_emax : frame.

  Lemma fr_wa_generateBlocks : forall bm (x1 : view) (x1' : view), x1' = mv x1 -> rle mv_wa (TabulatedData.wa_generateBlocks bm x1) (TabulatedData.wa_generateBlocks bm x1').
  Proof. intros; subst; unfold TabulatedData.wa_generateBlocks; fr. Qed.
  Hint Resolve fr_wa_generateBlocks : frame.

  Lemma fr_wa_make : forall bm (x1 : view) (x1' : view), x1' = mv x1 -> rle mv_wa (TabulatedData.wa_make bm x1) (TabulatedData.wa_make bm x1').
  Proof. intros; subst; unfold TabulatedData.wa_make; fr. Qed.
  Hint Resolve fr_wa_make : frame.

  Lemma fr_wa_U : forall (x0 : watt), rle (fun x => x) (TabulatedData.wa_U x0) (TabulatedData.wa_U (mv_wa x0)).
  Proof. intros; subst; unfold TabulatedData.wa_U; fr. Qed.
  Hint Resolve fr_wa_U : frame.

  Lemma fr_wa_emin : forall bm (x1 : watt), rle (fun x => x) (TabulatedData.wa_emin bm x1) (TabulatedData.wa_emin bm (mv_wa x1)).
  Proof. intros; subst; unfold TabulatedData.wa_emin; fr. Qed.
  Hint Resolve fr_wa_emin : frame.

  Lemma fr_wa_emax : forall bm (x1 : watt), rle (fun x => x) (TabulatedData.wa_emax bm x1) (TabulatedData.wa_emax bm (mv_wa x1)).
  Proof. intros; subst; unfold TabulatedData.wa_emax; fr. Qed.
  Hint Resolve fr_wa_emax : frame.

  Lemma fr_pt_generateBlocks : forall bm (x1 : Z) (x1' : Z) (x2 : view) (x2' : view), x1' = x1 -> x2' = mv x2 -> rle mv_pt (TabulatedData.pt_generateBlocks bm x1 x2) (TabulatedData.pt_generateBlocks bm x1' x2').
  Proof. intros; subst; unfold TabulatedData.pt_generateBlocks; fr. Qed.
  Hint Resolve fr_pt_generateBlocks : frame.

  Lemma fr_dp_make : forall bm (x1 : view) (x1' : view) (x2 : Z) (x2' : Z), x1' = mv x1 -> x2' = x2 -> rle mv_dp (TabulatedData.dp_make bm x1 x2) (TabulatedData.dp_make bm x1' x2').
  Proof. intros; subst; unfold TabulatedData.dp_make; fr. Qed.
  Hint Resolve fr_dp_make : frame.

  Lemma fr_dp_DEC : forall bm (x1 : precursorData), rle (fun x => x) (TabulatedData.dp_DEC bm x1) (TabulatedData.dp_DEC bm (mv_dp x1)).
  Proof. intros; subst; unfold TabulatedData.dp_DEC; fr. Qed.
  Hint Resolve fr_dp_DEC : frame.

  Lemma fr_tf_make : forall bm (x1 : view) (x1' : view), x1' = mv x1 -> rle mv_pt (TabulatedData.tf_make bm x1) (TabulatedData.tf_make bm x1').
  Proof. intros; subst; unfold TabulatedData.tf_make; fr. Qed.
  Hint Resolve fr_tf_make : frame.

  Lemma fr_tf_LNU : forall bm (x1 : prefixedTabulated), rle (fun x => x) (TabulatedData.tf_LNU bm x1) (TabulatedData.tf_LNU bm (mv_pt x1)).
  Proof. intros; subst; unfold TabulatedData.tf_LNU; fr. Qed.
  Hint Resolve fr_tf_LNU : frame.

  Lemma fr_ts_make : forall bm (x1 : view) (x1' : view), x1' = mv x1 -> rle mv_pt (TabulatedData.ts_make bm x1) (TabulatedData.ts_make bm x1').
  Proof. intros; subst; unfold TabulatedData.ts_make; fr. Qed.
  Hint Resolve fr_ts_make : frame.

  Lemma fr_ts_MFTYPE : forall bm (x1 : prefixedTabulated), rle (fun x => x) (TabulatedData.ts_MFTYPE bm x1) (TabulatedData.ts_MFTYPE bm (mv_pt x1)).
  Proof. intros; subst; unfold TabulatedData.ts_MFTYPE; fr. Qed.
  Hint Resolve fr_ts_MFTYPE : frame.

  Lemma fr_ts_MT : forall bm (x1 : prefixedTabulated), rle (fun x => x) (TabulatedData.ts_MT bm x1) (TabulatedData.ts_MT bm (mv_pt x1)).
  Proof. intros; subst; unfold TabulatedData.ts_MT; fr. Qed.
  Hint Resolve fr_ts_MT : frame.

  Lemma fr_bl_LLOC_ bm (v v' : view) n n' loc i i' : v' = mv v -> n' = n -> i' = i -> rle (fun x => x) (bl_LLOC_ bm v n loc i) (bl_LLOC_ bm v' n' loc i').
  Proof. intros; subst; unfold bl_LLOC_; fr. Qed.
  Hint Resolve fr_bl_LLOC_ : frame.
  Lemma fr_bl_LLOC {D} (f : D -> D) bm (o : blockWithLocators D) i i' : i' = i -> rle (fun x => x) (bl_LLOC bm o i) (bl_LLOC bm (mv_bl f o) i').
  Proof. intros; subst; unfold bl_LLOC; fr. Qed.
  Definition moves {D} (f : D -> D) (gd : Z -> view -> outcome D) : Prop := forall z z' v v', v' = mv v -> z' = z -> rle f (gd z v) (gd z' v').
  Lemma fr_bl_generateBlocks {D} (f : D -> D) bm gd v v' n loc p p' : moves f gd -> v' = mv v -> p' = shift p -> rle (map f) (bl_generateBlocks bm gd v n loc p) (bl_generateBlocks bm gd v' n loc p').
  Proof. unfold moves; intros; subst; unfold bl_generateBlocks; fr. Qed.
  Lemma fr_bl_make {D} (f : D -> D) bm gd v v' p p' n n' loc : moves f gd -> v' = mv v -> p' = shift p -> n' = n -> rle (mv_bl f) (bl_make bm gd v p n loc) (bl_make bm gd v' p' n' loc).
  Proof. intros; subst; unfold bl_make; nrm; eapply rle_bind; [fr|]. intros ?. eapply rle_bind; [apply (fr_bl_generateBlocks f); auto with frame|]. fr. Qed.
  Lemma fr_bl_datum {D} (f : D -> D) bm (o : blockWithLocators D) i i' : i' = i -> rle f (bl_datum bm o i) (bl_datum bm (mv_bl f o) i').
  Proof. intros; subst; unfold bl_datum; fr. Qed.
  Hint Resolve fr_bl_LLOC fr_bl_make fr_bl_datum : frame.

  Lemma fr_xs_energyIndex : forall bm (x1 : view) (x1' : view), x1' = mv x1 -> rle (fun x => x) (BlockWithLocators.xs_energyIndex bm x1) (BlockWithLocators.xs_energyIndex bm x1').
  Proof. intros; subst; unfold BlockWithLocators.xs_energyIndex; fr. Qed.
  Hint Resolve fr_xs_energyIndex : frame.

  Lemma fr_xs_numberValues : forall bm (x1 : view) (x1' : view), x1' = mv x1 -> rle (fun x => x) (BlockWithLocators.xs_numberValues bm x1) (BlockWithLocators.xs_numberValues bm x1').
  Proof. intros; subst; unfold BlockWithLocators.xs_numberValues; fr. Qed.
  Hint Resolve fr_xs_numberValues : frame.

  Lemma fr_xs_crossSections : forall bm (x1 : view) (x1' : view), x1' = mv x1 -> rle (fun x => x) (BlockWithLocators.xs_crossSections bm x1) (BlockWithLocators.xs_crossSections bm x1').
  Proof. intros; subst; unfold BlockWithLocators.xs_crossSections; fr. Qed.
  Hint Resolve fr_xs_crossSections : frame.

  Lemma fr_xs_make : forall bm (x1 : view) (x1' : view), x1' = mv x1 -> rle mv (BlockWithLocators.xs_make bm x1) (BlockWithLocators.xs_make bm x1').
  Proof. intros; subst; unfold BlockWithLocators.xs_make; fr. Qed.
  Hint Resolve fr_xs_make : frame.

  Lemma fr_px_MFTYPE : forall bm (x1 : view) (x1' : view), x1' = mv x1 -> rle (fun x => x) (BlockWithLocators.px_MFTYPE bm x1) (BlockWithLocators.px_MFTYPE bm x1').
  Proof. intros; subst; unfold BlockWithLocators.px_MFTYPE; fr. Qed.
  Hint Resolve fr_px_MFTYPE : frame.

  Lemma fr_px_energyIndex : forall bm (x1 : view) (x1' : view), x1' = mv x1 -> rle (fun x => x) (BlockWithLocators.px_energyIndex bm x1) (BlockWithLocators.px_energyIndex bm x1').
  Proof. intros; subst; unfold BlockWithLocators.px_energyIndex; fr. Qed.
  Hint Resolve fr_px_energyIndex : frame.

  Lemma fr_px_numberValues : forall bm (x1 : view) (x1' : view), x1' = mv x1 -> rle (fun x => x) (BlockWithLocators.px_numberValues bm x1) (BlockWithLocators.px_numberValues bm x1').
  Proof. intros; subst; unfold BlockWithLocators.px_numberValues; fr. Qed.
  Hint Resolve fr_px_numberValues : frame.

  Lemma fr_px_crossSections : forall bm (x1 : view) (x1' : view), x1' = mv x1 -> rle (fun x => x) (BlockWithLocators.px_crossSections bm x1) (BlockWithLocators.px_crossSections bm x1').
  Proof. intros; subst; unfold BlockWithLocators.px_crossSections; fr. Qed.
  Hint Resolve fr_px_crossSections : frame.

  Lemma fr_px_make : forall bm (x1 : view) (x1' : view), x1' = mv x1 -> rle mv (BlockWithLocators.px_make bm x1) (BlockWithLocators.px_make bm x1').
  Proof. intros; subst; unfold BlockWithLocators.px_make; fr. Qed.
  Hint Resolve fr_px_make : frame.

  Lemma fr_sig_generateData : forall bm (x1 : Z) (x1' : Z) (x2 : view) (x2' : view), x1' = x1 -> x2' = mv x2 -> rle mv (BlockWithLocators.sig_generateData bm x1 x2) (BlockWithLocators.sig_generateData bm x1' x2').
  Proof. intros; subst; unfold BlockWithLocators.sig_generateData; fr. Qed.
  Hint Resolve fr_sig_generateData : frame.

  Lemma fr_sigp_generateData : forall bm (x1 : Z) (x1' : Z) (x2 : view) (x2' : view), x1' = x1 -> x2' = mv x2 -> rle mv_pp (BlockWithLocators.sigp_generateData bm x1 x2) (BlockWithLocators.sigp_generateData bm x1' x2').
  Proof. intros; subst; unfold BlockWithLocators.sigp_generateData; fr. Qed.
  Hint Resolve fr_sigp_generateData : frame.

  Lemma fr_sigh_generateData : forall bm (x1 : Z) (x1' : Z) (x2 : view) (x2' : view), x1' = x1 -> x2' = mv x2 -> rle mv_pt (BlockWithLocators.sigh_generateData bm x1 x2) (BlockWithLocators.sigh_generateData bm x1' x2').
  Proof. intros; subst; unfold BlockWithLocators.sigh_generateData; fr. Qed.
  Hint Resolve fr_sigh_generateData : frame.

  Lemma fr_tp_interpolation : forall bm (x1 : view) (x1' : view), x1' = mv x1 -> rle (fun x => x) (Angular.tp_interpolation bm x1) (Angular.tp_interpolation bm x1').
  Proof. intros; subst; unfold Angular.tp_interpolation; fr. Qed.
  Hint Resolve fr_tp_interpolation : frame.

  Lemma fr_tp_numberValues : forall bm (x1 : view) (x1' : view), x1' = mv x1 -> rle (fun x => x) (Angular.tp_numberValues bm x1) (Angular.tp_numberValues bm x1').
  Proof. intros; subst; unfold Angular.tp_numberValues; fr. Qed.
  Hint Resolve fr_tp_numberValues : frame.

  Lemma fr_tp_values : forall bm (x1 : view) (x1' : view), x1' = mv x1 -> rle (fun x => x) (Angular.tp_values bm x1) (Angular.tp_values bm x1').
  Proof. intros; subst; unfold Angular.tp_values; fr. Qed.
  Hint Resolve fr_tp_values : frame.

  Lemma fr_tp_pdf : forall bm (x1 : view) (x1' : view), x1' = mv x1 -> rle (fun x => x) (Angular.tp_pdf bm x1) (Angular.tp_pdf bm x1').
  Proof. intros; subst; unfold Angular.tp_pdf; fr. Qed.
  Hint Resolve fr_tp_pdf : frame.

  Lemma fr_tp_cdf : forall bm (x1 : view) (x1' : view), x1' = mv x1 -> rle (fun x => x) (Angular.tp_cdf bm x1) (Angular.tp_cdf bm x1').
  Proof. intros; subst; unfold Angular.tp_cdf; fr. Qed.
  Hint Resolve fr_tp_cdf : frame.

  Lemma fr_tp_column : forall bm (x1 : view) (x1' : view) (x2 : Z) (x2' : Z), x1' = mv x1 -> x2' = x2 -> rle (fun x => x) (Angular.tp_column bm x1 x2) (Angular.tp_column bm x1' x2').
  Proof. intros; subst; unfold Angular.tp_column; fr. Qed.
  Hint Resolve fr_tp_column : frame.

  Lemma fr_tp_make : forall bm (x1 : view) (x1' : view), x1' = mv x1 -> rle mv (Angular.tp_make bm x1) (Angular.tp_make bm x1').
  Proof. intros; subst; unfold Angular.tp_make; fr. Qed.
  Hint Resolve fr_tp_make : frame.

  Lemma fr_eq_cosines : forall bm (x1 : view) (x1' : view), x1' = mv x1 -> rle (fun x => x) (Angular.eq_cosines bm x1) (Angular.eq_cosines bm x1').
  Proof. intros; subst; unfold Angular.eq_cosines; fr. Qed.
  Hint Resolve fr_eq_cosines : frame.

  Lemma fr_ta_make : forall bm (x1 : double) (x2 : view) (x2' : view), x2' = mv x2 -> rle mv_ang (Angular.ta_make bm x1 x2) (Angular.ta_make bm x1 x2').
  Proof. intros; subst; unfold Angular.ta_make; fr. Qed.
  Hint Resolve fr_ta_make : frame.

  Lemma fr_eq_make_a : forall (x0 : double) (x1 : view) (x1' : view), x1' = mv x1 -> rle mv_ang (Angular.eq_make x0 x1) (Angular.eq_make x0 x1').
  Proof. intros; subst; unfold Angular.eq_make; fr. Qed.
  Hint Resolve fr_eq_make_a : frame.

  Lemma fr_an_verify : forall bm (x1 : columnData) (x2 : Z) (x2' : Z), x2' = x2 -> rle (fun x => x) (Angular.an_verify bm x1 x2) (Angular.an_verify bm (mv_cd x1) x2').
  Proof. intros; subst; unfold Angular.an_verify; fr. Qed.
  Hint Resolve fr_an_verify : frame.

  Lemma fr_an_incidentEnergy : forall bm (x1 : columnData) (x2 : Z) (x2' : Z), x2' = x2 -> rle (fun x => x) (Angular.an_incidentEnergy bm x1 x2) (Angular.an_incidentEnergy bm (mv_cd x1) x2').
  Proof. intros; subst; unfold Angular.an_incidentEnergy; fr. Qed.
  Hint Resolve fr_an_incidentEnergy : frame.

  Lemma fr_an_LOCC : forall bm (x1 : columnData) (x2 : Z) (x2' : Z), x2' = x2 -> rle (fun x => x) (Angular.an_LOCC bm x1 x2) (Angular.an_LOCC bm (mv_cd x1) x2').
  Proof. intros; subst; unfold Angular.an_LOCC; fr. Qed.
  Hint Resolve fr_an_LOCC : frame.

  Lemma fr_an_relative : forall bm (x1 : Z) (x1' : Z) (x2 : columnData) (x3 : Z) (x3' : Z), x1' = x1 -> x3' = x3 -> rle (fun x => x) (Angular.an_relative bm x1 x2 x3) (Angular.an_relative bm x1' (mv_cd x2) x3').
  Proof. intros; subst; unfold Angular.an_relative; fr. Qed.
  Hint Resolve fr_an_relative : frame.

  Lemma fr_an_right bm v v' locb locb' values locator locator' l : v' = mv v -> locb' = locb -> locator' = locator -> rle shift (an_right bm v locb values locator l) (an_right bm v' locb' (mv_cd values) locator' l).
  Proof. intros -> -> ->. induction l as [|n l IH]; cbn [an_right]; fr. Qed.
  Hint Resolve fr_an_right : frame.

  Lemma fr_an_distribution : forall bm (x1 : view) (x1' : view) (x2 : Z) (x2' : Z) (x3 : columnData) (x4 : Z) (x4' : Z) (x5 : Z) (x5' : Z), x1' = mv x1 -> x2' = x2 -> x4' = x4 -> x5' = x5 -> rle mv_ang (Angular.an_distribution bm x1 x2 x3 x4 x5) (Angular.an_distribution bm x1' x2' (mv_cd x3) x4' x5').
  Proof. intros; subst; unfold Angular.an_distribution; fr. Qed.
  Hint Resolve fr_an_distribution : frame.

  Lemma fr_an_generateBlocks : forall bm (x1 : Z) (x1' : Z) (x2 : view) (x2' : view), x1' = x1 -> x2' = mv x2 -> rle mv_an (Angular.an_generateBlocks bm x1 x2) (Angular.an_generateBlocks bm x1' x2').
  Proof. intros; subst; unfold Angular.an_generateBlocks; fr. Qed.
  Hint Resolve fr_an_generateBlocks : frame.

  Lemma fr_an_make : forall bm (x1 : Z) (x1' : Z) (x2 : view) (x2' : view), x1' = x1 -> x2' = mv x2 -> rle mv_an (Angular.an_make bm x1 x2) (Angular.an_make bm x1' x2').
  Proof. intros; subst; unfold Angular.an_make; fr. Qed.
  Hint Resolve fr_an_make : frame.

  Lemma fr_an_NE : forall bm (x1 : angularData), rle (fun x => x) (Angular.an_NE bm x1) (Angular.an_NE bm (mv_an x1)).
  Proof. intros; subst; unfold Angular.an_NE; fr. Qed.
  Hint Resolve fr_an_NE : frame.

  Lemma fr_an_incidentEnergies : forall bm (x1 : angularData), rle (fun x => x) (Angular.an_incidentEnergies bm x1) (Angular.an_incidentEnergies bm (mv_an x1)).
  Proof. intros; subst; unfold Angular.an_incidentEnergies; fr. Qed.
  Hint Resolve fr_an_incidentEnergies : frame.

  Lemma fr_an_datum : forall bm (x1 : angularData) (x2 : Z) (x2' : Z), x2' = x2 -> rle mv_ang (Angular.an_datum bm x1 x2) (Angular.an_datum bm (mv_an x1) x2').
  Proof. intros; subst; unfold Angular.an_datum; fr. Qed.
  Hint Resolve fr_an_datum : frame.

  Lemma fr_ab_LAND_ : forall bm (x1 : view) (x1' : view) (x2 : Z) (x2' : Z) (x3 : bool) (x4 : Z) (x4' : Z), x1' = mv x1 -> x2' = x2 -> x4' = x4 -> rle (fun x => x) (AngularBlock.ab_LAND_ bm x1 x2 x3 x4) (AngularBlock.ab_LAND_ bm x1' x2' x3 x4').
  Proof. intros; subst; unfold AngularBlock.ab_LAND_; fr. Qed.
  Hint Resolve fr_ab_LAND_ : frame.

  Lemma fr_ab_LAND : forall bm (x1 : angularBlock) (x2 : Z) (x2' : Z), x2' = x2 -> rle (fun x => x) (AngularBlock.ab_LAND bm x1 x2) (AngularBlock.ab_LAND bm (mv_ab x1) x2').
  Proof. intros; subst; unfold AngularBlock.ab_LAND; fr. Qed.
  Hint Resolve fr_ab_LAND : frame.

  Lemma fr_ab_isFullyIsotropic : forall bm (x1 : angularBlock) (x2 : Z) (x2' : Z), x2' = x2 -> rle (fun x => x) (AngularBlock.ab_isFullyIsotropic bm x1 x2) (AngularBlock.ab_isFullyIsotropic bm (mv_ab x1) x2').
  Proof. intros; subst; unfold AngularBlock.ab_isFullyIsotropic; fr. Qed.
  Hint Resolve fr_ab_isFullyIsotropic : frame.

  Lemma fr_ab_isGiven : forall bm (x1 : angularBlock) (x2 : Z) (x2' : Z), x2' = x2 -> rle (fun x => x) (AngularBlock.ab_isGiven bm x1 x2) (AngularBlock.ab_isGiven bm (mv_ab x1) x2').
  Proof. intros; subst; unfold AngularBlock.ab_isGiven; fr. Qed.
  Hint Resolve fr_ab_isGiven : frame.

  Lemma fr_ab_right bm v v' nr nr' zero xand xand' locator locator' l : v' = mv v -> nr' = nr -> xand' = xand -> locator' = locator -> rle shift (ab_right bm v nr zero xand locator l) (ab_right bm v' nr' zero xand' locator' l).
  Proof. intros -> -> -> ->. induction l as [|n l IH]; cbn [ab_right]; fr. Qed.
  Hint Resolve fr_ab_right : frame.

  Lemma fr_ab_distribution : forall bm (x1 : view) (x1' : view) (x2 : Z) (x2' : Z) (x3 : bool) (x4 : Z) (x4' : Z) (x5 : Z) (x5' : Z), x1' = mv x1 -> x2' = x2 -> x4' = shift x4 -> x5' = x5 -> rle (mv_adist mv_an) (AngularBlock.ab_distribution bm x1 x2 x3 x4 x5) (AngularBlock.ab_distribution bm x1' x2' x3 x4' x5').
  Proof. intros; subst; unfold AngularBlock.ab_distribution; fr. Qed.
  Hint Resolve fr_ab_distribution : frame.

  Lemma fr_ab_generateBlocks : forall bm (x1 : view) (x1' : view) (x2 : Z) (x2' : Z) (x3 : bool) (x4 : Z) (x4' : Z), x1' = mv x1 -> x2' = x2 -> x4' = shift x4 -> rle (map (mv_adist mv_an)) (AngularBlock.ab_generateBlocks bm x1 x2 x3 x4) (AngularBlock.ab_generateBlocks bm x1' x2' x3 x4').
  Proof. intros; subst; unfold AngularBlock.ab_generateBlocks; fr. Qed.
  Hint Resolve fr_ab_generateBlocks : frame.

  Lemma fr_ab_make : forall bm (x1 : view) (x1' : view) (x2 : Z) (x2' : Z) (x3 : Z) (x3' : Z) (x4 : bool), x1' = mv x1 -> x2' = shift x2 -> x3' = x3 -> rle mv_ab (AngularBlock.ab_make bm x1 x2 x3 x4) (AngularBlock.ab_make bm x1' x2' x3' x4).
  Proof. intros; subst; unfold AngularBlock.ab_make; fr. Qed.
  Hint Resolve fr_ab_make : frame.

  Lemma fr_ab_datum : forall bm (x1 : angularBlock) (x2 : Z) (x2' : Z), x2' = x2 -> rle (mv_adist mv_an) (AngularBlock.ab_datum bm x1 x2) (AngularBlock.ab_datum bm (mv_ab x1) x2').
  Proof. intros; subst; unfold AngularBlock.ab_datum; fr. Qed.
  Hint Resolve fr_ab_datum : frame.

  Lemma fr_dd_verify : forall bm (x1 : columnData) (x2 : Z) (x2' : Z), x2' = x2 -> rle (fun x => x) (DistributionData.dd_verify bm x1 x2) (DistributionData.dd_verify bm (mv_cd x1) x2').
  Proof. intros; subst; unfold DistributionData.dd_verify; fr. Qed.
  Hint Resolve fr_dd_verify : frame.

  Lemma fr_dd_value : forall bm (x1 : columnData) (x2 : Z) (x2' : Z) (x3 : Z) (x3' : Z), x2' = x2 -> x3' = x3 -> rle (fun x => x) (DistributionData.dd_value bm x1 x2 x3) (DistributionData.dd_value bm (mv_cd x1) x2' x3').
  Proof. intros; subst; unfold DistributionData.dd_value; fr. Qed.
  Hint Resolve fr_dd_value : frame.

  Lemma fr_dd_LOCC : forall bm (x1 : columnData) (x2 : Z) (x2' : Z), x2' = x2 -> rle (fun x => x) (DistributionData.dd_LOCC bm x1 x2) (DistributionData.dd_LOCC bm (mv_cd x1) x2').
  Proof. intros; subst; unfold DistributionData.dd_LOCC; fr. Qed.
  Hint Resolve fr_dd_LOCC : frame.

  Lemma fr_dd_relative : forall bm (x1 : (Z -> Z)) (x2 : Z) (x2' : Z) (x3 : columnData) (x4 : Z) (x4' : Z), x2' = x2 -> x4' = x4 -> rle (fun x => x) (DistributionData.dd_relative bm x1 x2 x3 x4) (DistributionData.dd_relative bm x1 x2' (mv_cd x3) x4').
  Proof. intros; subst; unfold DistributionData.dd_relative; fr. Qed.
  Hint Resolve fr_dd_relative : frame.

  Lemma fr_dd_right bm v v' rel rel' locator locator' l : v' = mv v -> locator' = locator -> (forall i, rle (fun x => x) (rel i) (rel' i)) -> rle shift (dd_right bm v rel locator l) (dd_right bm v' rel' locator' l).
  Proof. intros -> -> H. induction l as [|n l IH]; cbn [dd_right]; fr. Qed.
  Definition moves3 {D} (f : D -> D) (gd : double -> Z -> view -> outcome D) : Prop := forall e z v v', v' = mv v -> rle f (gd e z v) (gd e z v').
  Lemma fr_dd_distribution {D} (f : D -> D) bm gd conv v v' locb values n i : moves3 f gd -> v' = mv v -> rle f (dd_distribution bm gd conv v locb values n i) (dd_distribution bm gd conv v' locb (mv_cd values) n i).
  Proof.
    unfold moves3; intros H ->. unfold dd_distribution. do 4 (eapply rle_bind; [fr|intros ?]). eapply rle_bind; [|fr].
    apply fr_dd_right; [reflexivity|reflexivity|fr].
  Qed.
  Lemma fr_dd_generateBlocks {D} (f : D -> D) bm gd locb locb' v v' : moves3 f gd -> locb' = locb -> v' = mv v -> rle (mv_dd f) (dd_generateBlocks bm gd locb v) (dd_generateBlocks bm gd locb' v').
  Proof.
    intros H -> ->. unfold dd_generateBlocks. do 7 (eapply rle_bind; [fr|intros ?]).
    eapply rle_bind; [apply rle_mapM; intros i; apply fr_dd_distribution; [exact H|reflexivity]|fr].
  Qed.
  Lemma fr_dd_make {D} (f : D -> D) bm gd locb locb' v v' : moves3 f gd -> locb' = locb -> v' = mv v -> rle (mv_dd f) (dd_make bm gd locb v) (dd_make bm gd locb' v').
  Proof.
    intros H -> ->. unfold dd_make. do 3 (eapply rle_bind; [fr|intros ?]). apply fr_dd_generateBlocks; [exact H|reflexivity|reflexivity].
  Qed.
  Lemma fr_di_generateBlocks {D} (f : D -> D) bm gd locb locb' v v' : moves3 f gd -> locb' = locb -> v' = mv v -> rle (mv_di f) (di_generateBlocks bm gd locb v) (di_generateBlocks bm gd locb' v').
  Proof.
    intros H -> ->. unfold di_generateBlocks. do 5 (eapply rle_bind; [fr|intros ?]).
    eapply rle_bind; [apply rle_mapM; intros i; apply fr_dd_distribution; [exact H|reflexivity]|fr].
  Qed.
  Lemma fr_di_make {D} (f : D -> D) bm gd locb locb' v v' : moves3 f gd -> locb' = locb -> v' = mv v -> rle (mv_di f) (di_make bm gd locb v) (di_make bm gd locb' v').
  Proof.
    intros H -> ->. unfold di_make. do 2 (eapply rle_bind; [fr|intros ?]). apply fr_di_generateBlocks; [exact H|reflexivity|reflexivity].
  Qed.

  Lemma fr_dd_NB {D} (f : D -> D) bm (o : distributionData D)   : rle (fun x => x) (dd_NB bm o ) (dd_NB bm (mv_dd f o) ).
  Proof. intros; subst; unfold dd_NB; fr. Qed.
  Hint Resolve fr_dd_NB : frame.
  Lemma fr_dd_NBT {D} (f : D -> D) bm (o : distributionData D)   : rle (fun x => x) (dd_NBT bm o ) (dd_NBT bm (mv_dd f o) ).
  Proof. intros; subst; unfold dd_NBT; fr. Qed.
  Hint Resolve fr_dd_NBT : frame.
  Lemma fr_dd_INT {D} (f : D -> D) bm (o : distributionData D)   : rle (fun x => x) (dd_INT bm o ) (dd_INT bm (mv_dd f o) ).
  Proof. intros; subst; unfold dd_INT; fr. Qed.
  Hint Resolve fr_dd_INT : frame.
  Lemma fr_dd_N {D} (f : D -> D) bm (o : distributionData D)   : rle (fun x => x) (dd_N bm o ) (dd_N bm (mv_dd f o) ).
  Proof. intros; subst; unfold dd_N; fr. Qed.
  Hint Resolve fr_dd_N : frame.
  Lemma fr_dd_energies {D} (f : D -> D) bm (o : distributionData D)   : rle (fun x => x) (dd_energies bm o ) (dd_energies bm (mv_dd f o) ).
  Proof. intros; subst; unfold dd_energies; fr. Qed.
  Hint Resolve fr_dd_energies : frame.
  Lemma fr_dd_energy {D} (f : D -> D) bm (o : distributionData D) i0 i0' : i0' = i0 -> rle (fun x => x) (dd_energy bm o i0) (dd_energy bm (mv_dd f o) i0').
  Proof. intros; subst; unfold dd_energy; fr. Qed.
  Hint Resolve fr_dd_energy : frame.
  Lemma fr_dd_locator {D} (f : D -> D) bm (o : distributionData D) i0 i0' : i0' = i0 -> rle (fun x => x) (dd_locator bm o i0) (dd_locator bm (mv_dd f o) i0').
  Proof. intros; subst; unfold dd_locator; fr. Qed.
  Hint Resolve fr_dd_locator : frame.
  Lemma fr_dd_rel {D} (f : D -> D) bm (o : distributionData D) i0 i0' : i0' = i0 -> rle (fun x => x) (dd_rel bm o i0) (dd_rel bm (mv_dd f o) i0').
  Proof. intros; subst; unfold dd_rel; fr. Qed.
  Hint Resolve fr_dd_rel : frame.
  Lemma fr_dd_datum {D} (f : D -> D) bm (o : distributionData D) i0 i0' : i0' = i0 -> rle f (dd_datum bm o i0) (dd_datum bm (mv_dd f o) i0').
  Proof. intros; subst; unfold dd_datum; fr. Qed.
  Hint Resolve fr_dd_datum : frame.
  Lemma fr_dd_emin {D} (f : D -> D) bm (o : distributionData D)   : rle (fun x => x) (dd_emin bm o ) (dd_emin bm (mv_dd f o) ).
  Proof. intros; subst; unfold dd_emin; fr. Qed.
  Hint Resolve fr_dd_emin : frame.
  Lemma fr_dd_emax {D} (f : D -> D) bm (o : distributionData D)   : rle (fun x => x) (dd_emax bm o ) (dd_emax bm (mv_dd f o) ).
  Proof. intros; subst; unfold dd_emax; fr. Qed.
  Hint Resolve fr_dd_emax : frame.
  Lemma fr_di_interpolation {D} (f : D -> D) bm (o : distributionDataI D)   : rle (fun x => x) (di_interpolation bm o ) (di_interpolation bm (mv_di f o) ).
  Proof. intros; subst; unfold di_interpolation; fr. Qed.
  Hint Resolve fr_di_interpolation : frame.
  Lemma fr_di_N {D} (f : D -> D) bm (o : distributionDataI D)   : rle (fun x => x) (di_N bm o ) (di_N bm (mv_di f o) ).
  Proof. intros; subst; unfold di_N; fr. Qed.
  Hint Resolve fr_di_N : frame.
  Lemma fr_di_column {D} (f : D -> D) bm (o : distributionDataI D) i0 i0' : i0' = i0 -> rle (fun x => x) (di_column bm o i0) (di_column bm (mv_di f o) i0').
  Proof. intros; subst; unfold di_column; fr. Qed.
  Hint Resolve fr_di_column : frame.
  Lemma fr_di_value {D} (f : D -> D) bm (o : distributionDataI D) i0 i1 i0' i1' : i0' = i0 -> i1' = i1 -> rle (fun x => x) (di_value bm o i0 i1) (di_value bm (mv_di f o) i0' i1').
  Proof. intros; subst; unfold di_value; fr. Qed.
  Hint Resolve fr_di_value : frame.
  Lemma fr_di_rel {D} (f : D -> D) bm (o : distributionDataI D) i0 i0' : i0' = i0 -> rle (fun x => x) (di_rel bm o i0) (di_rel bm (mv_di f o) i0').
  Proof. intros; subst; unfold di_rel; fr. Qed.
  Hint Resolve fr_di_rel : frame.
  Lemma fr_di_datum {D} (f : D -> D) bm (o : distributionDataI D) i0 i0' : i0' = i0 -> rle f (di_datum bm o i0) (di_datum bm (mv_di f o) i0').
  Proof. intros; subst; unfold di_datum; fr. Qed.
  Hint Resolve fr_di_datum : frame.
  Hint Resolve fr_dd_make fr_di_make : frame.

  Lemma fr_tq_make : forall bm (x1 : double) (x2 : Z) (x2' : Z) (x3 : view) (x3' : view), x2' = x2 -> x3' = mv x3 -> rle mv_tq (EnergyLaws.tq_make bm x1 x2 x3) (EnergyLaws.tq_make bm x1 x2' x3').
  Proof. intros; subst; unfold EnergyLaws.tq_make; fr. Qed.
  Hint Resolve fr_tq_make : frame.

  Lemma fr_tq_interpolation : forall bm (x1 : tq_obj), rle (fun x => x) (EnergyLaws.tq_interpolation bm x1) (EnergyLaws.tq_interpolation bm (mv_tq x1)).
  Proof. intros; subst; unfold EnergyLaws.tq_interpolation; fr. Qed.
  Hint Resolve fr_tq_interpolation : frame.

  Lemma fr_tq_numberDiscrete : forall bm (x1 : tq_obj), rle (fun x => x) (EnergyLaws.tq_numberDiscrete bm x1) (EnergyLaws.tq_numberDiscrete bm (mv_tq x1)).
  Proof. intros; subst; unfold EnergyLaws.tq_numberDiscrete; fr. Qed.
  Hint Resolve fr_tq_numberDiscrete : frame.

  Lemma moves3_tq bm : moves3 mv_tq (tq_make bm).
  Proof. intros e z v v' H. apply fr_tq_make; auto. Qed.
  Hint Resolve moves3_tq : frame.

  Lemma fr_og_make : forall bm (x1 : Z) (x1' : Z) (x2 : view) (x2' : view), x1' = x1 -> x2' = mv x2 -> rle (mv_dd mv_tq) (EnergyLaws.og_make bm x1 x2) (EnergyLaws.og_make bm x1' x2').
  Proof. intros; subst; unfold EnergyLaws.og_make; fr. Qed.
  Hint Resolve fr_og_make : frame.

  Lemma fr_ae_make : forall bm (x1 : double) (x2 : Z) (x2' : Z) (x3 : view) (x3' : view), x2' = x2 -> x3' = mv x3 -> rle mv_ae (EnergyLaws.ae_make bm x1 x2 x3) (EnergyLaws.ae_make bm x1 x2' x3').
  Proof. intros; subst; unfold EnergyLaws.ae_make; fr. Qed.
  Hint Resolve fr_ae_make : frame.

  Lemma moves3_ae bm : moves3 mv_ae (ae_make bm).
  Proof. intros e z v v' H. apply fr_ae_make; auto. Qed.
  Hint Resolve moves3_ae : frame.

  Lemma fr_aed_make : forall bm (x1 : Z) (x1' : Z) (x2 : view) (x2' : view), x1' = x1 -> x2' = mv x2 -> rle (mv_dd mv_ae) (EnergyLaws.aed_make bm x1 x2) (EnergyLaws.aed_make bm x1' x2').
  Proof. intros; subst; unfold EnergyLaws.aed_make; fr. Qed.
  Hint Resolve fr_aed_make : frame.

  Lemma fr_tw_make : forall bm (x1 : double) (x2 : double) (x3 : double) (x4 : view) (x4' : view), x4' = mv x4 -> rle mv_tw (EnergyAngle.tw_make bm x1 x2 x3 x4) (EnergyAngle.tw_make bm x1 x2 x3 x4').
  Proof. intros; subst; unfold EnergyAngle.tw_make; fr. Qed.
  Hint Resolve fr_tw_make : frame.

  Lemma fr_ea_distribution : forall bm (x1 : view) (x1' : view) (x2 : Z) (x2' : Z) (x3 : columnData) (x4 : Z) (x4' : Z) (x5 : Z) (x5' : Z), x1' = mv x1 -> x2' = x2 -> x4' = x4 -> x5' = x5 -> rle mv_tw (EnergyAngle.ea_distribution bm x1 x2 x3 x4 x5) (EnergyAngle.ea_distribution bm x1' x2' (mv_cd x3) x4' x5').
  Proof. intros; subst; unfold EnergyAngle.ea_distribution; fr. Qed.
  Hint Resolve fr_ea_distribution : frame.

  Lemma fr_ea_generateBlocks : forall bm (x1 : Z) (x1' : Z) (x2 : view) (x2' : view), x1' = x1 -> x2' = mv x2 -> rle (mv_di mv_tw) (EnergyAngle.ea_generateBlocks bm x1 x2) (EnergyAngle.ea_generateBlocks bm x1' x2').
  Proof. intros; subst; unfold EnergyAngle.ea_generateBlocks; fr. Qed.
  Hint Resolve fr_ea_generateBlocks : frame.

  Lemma fr_ea_read : forall bm (x1 : Z) (x1' : Z) (x2 : view) (x2' : view), x1' = x1 -> x2' = mv x2 -> rle (mv_di mv_tw) (EnergyAngle.ea_read bm x1 x2) (EnergyAngle.ea_read bm x1' x2').
  Proof. intros; subst; unfold EnergyAngle.ea_read; fr. Qed.
  Hint Resolve fr_ea_read : frame.

  Lemma fr_ea_make : forall bm (x1 : double) (x2 : Z) (x2' : Z) (x3 : view) (x3' : view), x2' = x2 -> x3' = mv x3 -> rle mv_ea (EnergyAngle.ea_make bm x1 x2 x3) (EnergyAngle.ea_make bm x1 x2' x3').
  Proof. intros; subst; unfold EnergyAngle.ea_make; fr. Qed.
  Hint Resolve fr_ea_make : frame.

  Lemma moves3_ea bm : moves3 mv_ea (ea_make bm).
  Proof. intros e z v v' H. apply fr_ea_make; auto. Qed.
  Hint Resolve moves3_ea : frame.

  Lemma fr_ead_make : forall bm (x1 : Z) (x1' : Z) (x2 : view) (x2' : view), x1' = x1 -> x2' = mv x2 -> rle (mv_dd mv_ea) (EnergyAngle.ead_make bm x1 x2) (EnergyAngle.ead_make bm x1' x2').
  Proof. intros; subst; unfold EnergyAngle.ead_make; fr. Qed.
  Hint Resolve fr_ead_make : frame.

  Lemma fr_two_make : forall (x0 : view) (x0' : view) (x1 : double) (x2 : double), x0' = mv x0 -> rle mv_two (SimpleLaws.two_make x0 x1 x2) (SimpleLaws.two_make x0' x1 x2).
  Proof. intros; subst; unfold SimpleLaws.two_make; fr. Qed.
  Hint Resolve fr_two_make : frame.

  Lemma fr_nb_make : forall (x0 : view) (x0' : view) (x1 : double) (x2 : double), x0' = mv x0 -> rle mv_two (SimpleLaws.nb_make x0 x1 x2) (SimpleLaws.nb_make x0' x1 x2).
  Proof. intros; subst; unfold SimpleLaws.nb_make; fr. Qed.
  Hint Resolve fr_nb_make : frame.

  Lemma fr_two_C1 : forall bm (x1 : SimpleLaws.two), rle (fun x => x) (SimpleLaws.two_C1 bm x1) (SimpleLaws.two_C1 bm (mv_two x1)).
  Proof. intros; subst; unfold SimpleLaws.two_C1; fr. Qed.
  Hint Resolve fr_two_C1 : frame.

  Lemma fr_two_C2 : forall bm (x1 : SimpleLaws.two), rle (fun x => x) (SimpleLaws.two_C2 bm x1) (SimpleLaws.two_C2 bm (mv_two x1)).
  Proof. intros; subst; unfold SimpleLaws.two_C2; fr. Qed.
  Hint Resolve fr_two_C2 : frame.

  Lemma fr_dp_LP : forall bm (x1 : SimpleLaws.two), rle (fun x => x) (SimpleLaws.dp_LP bm x1) (SimpleLaws.dp_LP bm (mv_two x1)).
  Proof. intros; subst; unfold SimpleLaws.dp_LP; fr. Qed.
  Hint Resolve fr_dp_LP : frame.

  Lemma fr_nb_NPSX : forall bm (x1 : SimpleLaws.two), rle (fun x => x) (SimpleLaws.nb_NPSX bm x1) (SimpleLaws.nb_NPSX bm (mv_two x1)).
  Proof. intros; subst; unfold SimpleLaws.nb_NPSX; fr. Qed.
  Hint Resolve fr_nb_NPSX : frame.

  Lemma fr_nb_AP : forall bm (x1 : SimpleLaws.two), rle (fun x => x) (SimpleLaws.nb_AP bm x1) (SimpleLaws.nb_AP bm (mv_two x1)).
  Proof. intros; subst; unfold SimpleLaws.nb_AP; fr. Qed.
  Hint Resolve fr_nb_AP : frame.

  Lemma fr_nb_interpolation : forall bm (x1 : SimpleLaws.two), rle (fun x => x) (SimpleLaws.nb_interpolation bm x1) (SimpleLaws.nb_interpolation bm (mv_two x1)).
  Proof. intros; subst; unfold SimpleLaws.nb_interpolation; fr. Qed.
  Hint Resolve fr_nb_interpolation : frame.

  Lemma fr_nb_numberValues : forall bm (x1 : SimpleLaws.two), rle (fun x => x) (SimpleLaws.nb_numberValues bm x1) (SimpleLaws.nb_numberValues bm (mv_two x1)).
  Proof. intros; subst; unfold SimpleLaws.nb_numberValues; fr. Qed.
  Hint Resolve fr_nb_numberValues : frame.

  Lemma fr_nb_values : forall bm (x1 : SimpleLaws.two), rle (fun x => x) (SimpleLaws.nb_values bm x1) (SimpleLaws.nb_values bm (mv_two x1)).
  Proof. intros; subst; unfold SimpleLaws.nb_values; fr. Qed.
  Hint Resolve fr_nb_values : frame.

  Lemma fr_nb_pdf : forall bm (x1 : SimpleLaws.two), rle (fun x => x) (SimpleLaws.nb_pdf bm x1) (SimpleLaws.nb_pdf bm (mv_two x1)).
  Proof. intros; subst; unfold SimpleLaws.nb_pdf; fr. Qed.
  Hint Resolve fr_nb_pdf : frame.

  Lemma fr_nb_cdf : forall bm (x1 : SimpleLaws.two), rle (fun x => x) (SimpleLaws.nb_cdf bm x1) (SimpleLaws.nb_cdf bm (mv_two x1)).
  Proof. intros; subst; unfold SimpleLaws.nb_cdf; fr. Qed.
  Hint Resolve fr_nb_cdf : frame.

  Lemma eqb_numberBins_mv o : eqb_numberBins (mv_tq o) = eqb_numberBins o.
  Proof. unfold eqb_numberBins. nrm. reflexivity. Qed.

  Lemma fr_eqb_energies : forall bm (x1 : eqb), rle (fun x => x) (SimpleLaws.eqb_energies bm x1) (SimpleLaws.eqb_energies bm (mv_tq x1)).
  Proof. intros; subst; unfold SimpleLaws.eqb_energies; rewrite eqb_numberBins_mv; fr. Qed.
  Hint Resolve fr_eqb_energies : frame.

  Lemma fr_eq_verify : forall bm (x1 : columnData) (x2 : Z) (x2' : Z), x2' = x2 -> rle (fun x => x) (SimpleLaws.eq_verify bm x1 x2) (SimpleLaws.eq_verify bm (mv_cd x1) x2').
  Proof. intros; subst; unfold SimpleLaws.eq_verify; fr. Qed.
  Hint Resolve fr_eq_verify : frame.

  Lemma fr_eq_energy_ : forall bm (x1 : columnData) (x2 : Z) (x2' : Z), x2' = x2 -> rle (fun x => x) (SimpleLaws.eq_energy_ bm x1 x2) (SimpleLaws.eq_energy_ bm (mv_cd x1) x2').
  Proof. intros; subst; unfold SimpleLaws.eq_energy_; fr. Qed.
  Hint Resolve fr_eq_energy_ : frame.

  Lemma fr_eq_NET_ : forall bm (x1 : view) (x1' : view) (x2 : columnData) (x3 : columnData), x1' = mv x1 -> rle (fun x => x) (SimpleLaws.eq_NET_ bm x1 x2 x3) (SimpleLaws.eq_NET_ bm x1' (mv_cd x2) (mv_cd x3)).
  Proof. intros; subst; unfold SimpleLaws.eq_NET_; fr. Qed.
  Hint Resolve fr_eq_NET_ : frame.

  Lemma fr_eq_generateBlocks : forall bm (x1 : view) (x1' : view), x1' = mv x1 -> rle mv_eq (SimpleLaws.eq_generateBlocks bm x1) (SimpleLaws.eq_generateBlocks bm x1').
  Proof. intros; subst; unfold SimpleLaws.eq_generateBlocks; fr. Qed.
  Hint Resolve fr_eq_generateBlocks : frame.

  Lemma fr_eq_make : forall bm (x1 : view) (x1' : view), x1' = mv x1 -> rle mv_eq (SimpleLaws.eq_make bm x1) (SimpleLaws.eq_make bm x1').
  Proof. intros; subst; unfold SimpleLaws.eq_make; fr. Qed.
  Hint Resolve fr_eq_make : frame.

  Lemma fr_eq_NB : forall bm (x1 : equi), rle (fun x => x) (SimpleLaws.eq_NB bm x1) (SimpleLaws.eq_NB bm (mv_eq x1)).
  Proof. intros; subst; unfold SimpleLaws.eq_NB; fr. Qed.
  Hint Resolve fr_eq_NB : frame.

  Lemma fr_eq_NBT : forall bm (x1 : equi), rle (fun x => x) (SimpleLaws.eq_NBT bm x1) (SimpleLaws.eq_NBT bm (mv_eq x1)).
  Proof. intros; subst; unfold SimpleLaws.eq_NBT; fr. Qed.
  Hint Resolve fr_eq_NBT : frame.

  Lemma fr_eq_INT : forall bm (x1 : equi), rle (fun x => x) (SimpleLaws.eq_INT bm x1) (SimpleLaws.eq_INT bm (mv_eq x1)).
  Proof. intros; subst; unfold SimpleLaws.eq_INT; fr. Qed.
  Hint Resolve fr_eq_INT : frame.

  Lemma fr_eq_NE : forall bm (x1 : equi), rle (fun x => x) (SimpleLaws.eq_NE bm x1) (SimpleLaws.eq_NE bm (mv_eq x1)).
  Proof. intros; subst; unfold SimpleLaws.eq_NE; fr. Qed.
  Hint Resolve fr_eq_NE : frame.

  Lemma fr_eq_incidentEnergies : forall bm (x1 : equi), rle (fun x => x) (SimpleLaws.eq_incidentEnergies bm x1) (SimpleLaws.eq_incidentEnergies bm (mv_eq x1)).
  Proof. intros; subst; unfold SimpleLaws.eq_incidentEnergies; fr. Qed.
  Hint Resolve fr_eq_incidentEnergies : frame.

  Lemma fr_eq_incidentEnergy : forall bm (x1 : equi) (x2 : Z) (x2' : Z), x2' = x2 -> rle (fun x => x) (SimpleLaws.eq_incidentEnergy bm x1 x2) (SimpleLaws.eq_incidentEnergy bm (mv_eq x1) x2').
  Proof. intros; subst; unfold SimpleLaws.eq_incidentEnergy; fr. Qed.
  Hint Resolve fr_eq_incidentEnergy : frame.

  Lemma fr_eq_NET : forall bm (x1 : equi), rle (fun x => x) (SimpleLaws.eq_NET bm x1) (SimpleLaws.eq_NET bm (mv_eq x1)).
  Proof. intros; subst; unfold SimpleLaws.eq_NET; fr. Qed.
  Hint Resolve fr_eq_NET : frame.

  Lemma fr_eq_distribution : forall bm (x1 : equi) (x2 : Z) (x2' : Z), x2' = x2 -> rle mv_tq (SimpleLaws.eq_distribution bm x1 x2) (SimpleLaws.eq_distribution bm (mv_eq x1) x2').
  Proof. intros; subst; unfold SimpleLaws.eq_distribution; fr. Qed.
  Hint Resolve fr_eq_distribution : frame.

  Lemma fr_eq_emin : forall bm (x1 : equi), rle (fun x => x) (SimpleLaws.eq_emin bm x1) (SimpleLaws.eq_emin bm (mv_eq x1)).
  Proof. intros; subst; unfold SimpleLaws.eq_emin; fr. Qed.
  Hint Resolve fr_eq_emin : frame.

  Lemma fr_eq_emax : forall bm (x1 : equi), rle (fun x => x) (SimpleLaws.eq_emax bm x1) (SimpleLaws.eq_emax bm (mv_eq x1)).
  Proof. intros; subst; unfold SimpleLaws.eq_emax; fr. Qed.
  Hint Resolve fr_eq_emax : frame.

  Lemma fr_ed_emin : forall bm (x1 : ed_obj), rle (fun x => x) (EnergyDist.ed_emin bm x1) (EnergyDist.ed_emin bm (mv_ed x1)).
  Proof. intros bm [] *; subst; unfold EnergyDist.ed_emin; fr. Qed.
  Hint Resolve fr_ed_emin : frame.

  Lemma fr_ed_emax : forall bm (x1 : ed_obj), rle (fun x => x) (EnergyDist.ed_emax bm x1) (EnergyDist.ed_emax bm (mv_ed x1)).
  Proof. intros bm [] *; subst; unfold EnergyDist.ed_emax; fr. Qed.
  Hint Resolve fr_ed_emax : frame.

  Lemma fr_ed_read : forall bm (x1 : Z) (x1' : Z) (x2 : Z) (x2' : Z) (x3 : double) (x4 : double) (x5 : view) (x5' : view), x1' = x1 -> x2' = x2 -> x5' = mv x5 -> rle mv_ed (EnergyDist.ed_read bm x1 x2 x3 x4 x5) (EnergyDist.ed_read bm x1' x2' x3 x4 x5').
  Proof. intros; subst; unfold EnergyDist.ed_read; fr. Qed.
  Hint Resolve fr_ed_read : frame.

  Lemma fr_mu_read : forall bm (x1 : Z) (x1' : Z) (x2 : Z) (x2' : Z) (x3 : double) (x4 : double) (x5 : view) (x5' : view), x1' = x1 -> x2' = x2 -> x5' = mv x5 -> rle (map mv_ed) (MultiDist.mu_read bm x1 x2 x3 x4 x5) (MultiDist.mu_read bm x1' x2' x3 x4 x5').
  Proof. intros; subst; unfold MultiDist.mu_read; fr. Qed.
  Hint Resolve fr_mu_read : frame.

  Definition mv_pd (x : tabulatedData * list ed_obj) : tabulatedData * list ed_obj := (mv_td (fst x), map mv_ed (snd x)).
  Lemma fr_mu_loop bm locb v fuel : forall fuel' locator, (fuel <= fuel')%nat -> rle (map mv_pd) (mu_loop bm locb v fuel locator) (mu_loop bm locb (mv v) fuel' locator).
  Proof.
    induction fuel as [|fuel IH]; intros fuel' locator H; [exact Logic.I|]. destruct fuel' as [|fuel']; [lia|]. cbn [mu_loop].
    do 3 (eapply rle_bind; [fr|intros ?]). cbv zeta. do 3 (eapply rle_bind; [fr|intros ?]).
    eapply rle_bind; [apply fr_mu_read; try reflexivity; destruct (_ =? _); mveq|intros ?].
    eapply rle_bind; [|fr]. destruct (_ =? 0); [reflexivity|]. apply IH. lia.
  Qed.
  Lemma fr_mu_make bm locb locb' v v' : locb' = locb -> v' = mv v -> rle mv_mu (mu_make bm locb v) (mu_make bm locb' v').
  Proof.
    intros -> ->. unfold mu_make. eapply rle_bind; [apply fr_mu_loop; rewrite buf_mv, !app_length; lia|]. intros rs. apply rle_ok. unfold mv_mu.
    cbn [mu_v mu_locb mu_probs mu_dists]. rewrite concat_map, !map_map. reflexivity.
  Qed.
  Hint Resolve fr_mu_make : frame.

  Lemma mu_number_mv m : mu_numberDistributions (mv_mu m) = mu_numberDistributions m.
  Proof. unfold mu_numberDistributions, mv_mu. cbn [mu_probs mu_dists]. rewrite ?len_map, ?map_length. reflexivity. Qed.

  Lemma fr_mu_probability : forall bm (x1 : multi) (x2 : Z) (x2' : Z), x2' = x2 -> rle mv_td (MultiDist.mu_probability bm x1 x2) (MultiDist.mu_probability bm (mv_mu x1) x2').
  Proof. intros; subst; unfold MultiDist.mu_probability; rewrite mu_number_mv; fr. Qed.
  Hint Resolve fr_mu_probability : frame.

  Lemma fr_mu_distribution : forall bm (x1 : multi) (x2 : Z) (x2' : Z), x2' = x2 -> rle mv_ed (MultiDist.mu_distribution bm x1 x2) (MultiDist.mu_distribution bm (mv_mu x1) x2').
  Proof. intros; subst; unfold MultiDist.mu_distribution; rewrite mu_number_mv; fr. Qed.
  Hint Resolve fr_mu_distribution : frame.

  Lemma fr_en_read : forall bm (x1 : Z) (x1' : Z) (x2 : view) (x2' : view), x1' = x1 -> x2' = mv x2 -> rle mv_en (MultiDist.en_read bm x1 x2) (MultiDist.en_read bm x1' x2').
  Proof. intros; subst; unfold MultiDist.en_read; fr. Qed.
  Hint Resolve fr_en_read : frame.

  Lemma fr_ty_generateBlocks : forall bm (x1 : view) (x1' : view) (x2 : Z) (x2' : Z), x1' = mv x1 -> x2' = x2 -> rle mv_ty (FrameBlock.ty_generateBlocks bm x1 x2) (FrameBlock.ty_generateBlocks bm x1' x2').
  Proof. intros; subst; unfold FrameBlock.ty_generateBlocks; fr. Qed.
  Hint Resolve fr_ty_generateBlocks : frame.

  Lemma fr_ty_make : forall bm (x1 : view) (x1' : view) (x2 : Z) (x2' : Z), x1' = mv x1 -> x2' = x2 -> rle mv_ty (FrameBlock.ty_make bm x1 x2) (FrameBlock.ty_make bm x1' x2').
  Proof. intros; subst; unfold FrameBlock.ty_make; fr. Qed.
  Hint Resolve fr_ty_make : frame.

  Lemma fr_ty_frame : forall bm (x1 : tyr) (x2 : Z) (x2' : Z), x2' = x2 -> rle (fun x => x) (FrameBlock.ty_frame bm x1 x2) (FrameBlock.ty_frame bm (mv_ty x1) x2').
  Proof. intros; subst; unfold FrameBlock.ty_frame; fr. Qed.
  Hint Resolve fr_ty_frame : frame.

  Lemma fr_ty_mult : forall bm (x1 : tyr) (x2 : Z) (x2' : Z), x2' = x2 -> rle (fun x => x) (FrameBlock.ty_mult bm x1 x2) (FrameBlock.ty_mult bm (mv_ty x1) x2').
  Proof. intros; subst; unfold FrameBlock.ty_mult; fr. Qed.
  Hint Resolve fr_ty_mult : frame.

  Lemma fr_dh_generateData : forall bm (x1 : Z) (x1' : Z) (x2 : view) (x2' : view), x1' = x1 -> x2' = mv x2 -> rle mv_en (EnergyBlocks.dh_generateData bm x1 x2) (EnergyBlocks.dh_generateData bm x1' x2').
  Proof. intros; subst; unfold EnergyBlocks.dh_generateData; fr. Qed.
  Hint Resolve fr_dh_generateData : frame.

  Lemma moves_dh bm : moves mv_en (dh_generateData bm).
  Proof. intros z z' v v' H ->. apply fr_dh_generateData; auto. Qed.
  Hint Resolve moves_dh : frame.
  Lemma fr_dh_make bm v v' p p' n n' t : v' = mv v -> p' = shift p -> n' = n -> rle mv_dh (dh_make bm v p n t) (dh_make bm v' p' n' t).
  Proof. intros; subst; unfold dh_make. fr. Qed.
  Hint Resolve fr_dh_make : frame.

  Lemma fr_dh_LDLW : forall bm (x1 : dlwh) (x2 : Z) (x2' : Z), x2' = x2 -> rle (fun x => x) (EnergyBlocks.dh_LDLW bm x1 x2) (EnergyBlocks.dh_LDLW bm (mv_dh x1) x2').
  Proof. intros; subst; unfold EnergyBlocks.dh_LDLW; fr. Qed.
  Hint Resolve fr_dh_LDLW : frame.

  Lemma fr_dh_distribution : forall bm (x1 : dlwh) (x2 : Z) (x2' : Z), x2' = x2 -> rle mv_en (EnergyBlocks.dh_distribution bm x1 x2) (EnergyBlocks.dh_distribution bm (mv_dh x1) x2').
  Proof. intros; subst; unfold EnergyBlocks.dh_distribution; fr. Qed.
  Hint Resolve fr_dh_distribution : frame.

  Lemma fr_dh_frame : forall bm (x1 : dlwh) (x2 : Z) (x2' : Z), x2' = x2 -> rle (fun x => x) (EnergyBlocks.dh_frame bm x1 x2) (EnergyBlocks.dh_frame bm (mv_dh x1) x2').
  Proof. intros; subst; unfold EnergyBlocks.dh_frame, dh_NR; fr. Qed.
  Hint Resolve fr_dh_frame : frame.

  Lemma fr_dl_LDLW_ : forall bm (x1 : view) (x1' : view) (x2 : Z) (x2' : Z) (x3 : Z) (x3' : Z), x1' = mv x1 -> x2' = x2 -> x3' = x3 -> rle (fun x => x) (DlwBlock.dl_LDLW_ bm x1 x2 x3) (DlwBlock.dl_LDLW_ bm x1' x2' x3').
  Proof. intros; subst; unfold DlwBlock.dl_LDLW_; fr. Qed.
  Hint Resolve fr_dl_LDLW_ : frame.

  (** the numbers and frames of the reactions may stand elsewhere *)
  Definition ty_like (t t' : tyr) : Prop := ty_ntr t' = ty_ntr t /\ ty_frames t' = ty_frames t /\ ty_mults t' = ty_mults t.
  Definition mv_em (x : en_obj * mult_obj) : en_obj * mult_obj := (mv_en (fst x), mv_mo (snd x)).
  Definition mv_dlt (t' : tyr) (o : dlw) : dlw := Dlw (mv (dl_v o)) (dl_nr o) t' (map mv_en (dl_data o)) (map mv_mo (dl_mults o)) (dl_frames o).
  Lemma fr_ty_like t t' bm i : ty_like t t' -> ty_mult bm t' i = ty_mult bm t i.
  Proof. intros (E1 & E2 & E3). unfold ty_mult. rewrite E1, E3. reflexivity. Qed.
  Lemma fr_dl_one bm v v' nr t t' i : v' = mv v -> ty_like t t' -> rle mv_em (dl_one bm v nr t i) (dl_one bm v' nr t' i).
  Proof.
    intros -> Ht. unfold dl_one. rewrite !(fr_ty_like t t') by exact Ht.
    do 2 (eapply rle_bind; [fr|intros ?]). cbv zeta. do 2 (eapply rle_bind; [fr|intros ?]).
    eapply rle_bind; [instantiate (1 := shift); fr|intros ?]. eapply rle_bind; [fr|intros ?]. eapply rle_bind; [fr|intros ?]. destruct (100 <? _); [|reflexivity].
    eapply rle_bind; [fr|intros ?]. eapply rle_bind; [fr|intros ?]. reflexivity.
  Qed.
  Lemma fr_dl_make bm v v' p p' t t' nr nr' : v' = mv v -> p' = shift p -> ty_like t t' -> nr' = nr -> rle (mv_dlt t') (dl_make bm v p t nr) (dl_make bm v' p' t' nr').
  Proof.
    intros -> -> Ht ->. unfold dl_make. nrm. eapply rle_bind; [fr|intros ?]. unfold dl_generateBlocks.
    eapply rle_bind; [apply rle_mapM; intros i; apply fr_dl_one; [reflexivity|exact Ht]|intros rs]. destruct Ht as (E1 & -> & E3).
    destruct (_ <? _); [exact Logic.I|]. apply rle_ok. unfold mv_dlt. cbn [dl_v dl_nr dl_data dl_mults dl_frames]. rewrite !map_map. reflexivity.
  Qed.
  Lemma fr_dl_LDLW bm o t' i : rle (fun x => x) (dl_LDLW bm o i) (dl_LDLW bm (mv_dlt t' o) i).
  Proof. unfold dl_LDLW, mv_dlt. fr. Qed.
  Lemma fr_dl_distribution bm o t' i : rle mv_en (dl_distribution bm o i) (dl_distribution bm (mv_dlt t' o) i).
  Proof. unfold dl_distribution, mv_dlt. fr. Qed.
  Lemma fr_dl_multiplicity bm o t' i : rle mv_mo (dl_multiplicity bm o i) (dl_multiplicity bm (mv_dlt t' o) i).
  Proof. unfold dl_multiplicity, mv_dlt. fr. Qed.
  Lemma fr_dl_frame bm o t' i : rle (fun x => x) (dl_frame bm o i) (dl_frame bm (mv_dlt t' o) i).
  Proof. unfold dl_frame, mv_dlt. fr. Qed.

  Lemma fr_mt_make : forall (x0 : view) (x0' : view) (x1 : Z) (x1' : Z), x0' = mv x0 -> x1' = x1 -> rle mv_ad (ReactionNumbers.mt_make x0 x1) (ReactionNumbers.mt_make x0' x1').
  Proof. intros; subst; unfold ReactionNumbers.mt_make; fr. Qed.
  Hint Resolve fr_mt_make : frame.

  Lemma fr_mt_MT : forall bm (x1 : arrayData) (x2 : Z) (x2' : Z), x2' = x2 -> rle (fun x => x) (ReactionNumbers.mt_MT bm x1 x2) (ReactionNumbers.mt_MT bm (mv_ad x1) x2').
  Proof. intros; subst; unfold ReactionNumbers.mt_MT; fr. Qed.
  Hint Resolve fr_mt_MT : frame.

  Lemma fr_mt_MTs : forall bm (x1 : arrayData), rle (fun x => x) (ReactionNumbers.mt_MTs bm x1) (ReactionNumbers.mt_MTs bm (mv_ad x1)).
  Proof. intros; subst; unfold ReactionNumbers.mt_MTs; fr. Qed.
  Hint Resolve fr_mt_MTs : frame.

  Lemma fr_find_from b first first' n r : first' = shift first -> rle shift (find_from b first n r) (find_from (pre ++ b ++ post) first' n r).
  Proof.
    revert first first'. induction n as [|n IH]; intros first first' ->; cbn [find_from]; [reflexivity|].
    eapply rle_bind; [fr|intros ?]. eapply rle_bind; [fr|intros ?]. destruct (_ =? _); [reflexivity|]. apply IH. unfold shift. lia.
  Qed.
  Lemma fr_find_range b first last first' last' r r' : first' = shift first -> last' = shift last -> r' = r -> rle shift (find_range b first last r) (find_range (pre ++ b ++ post) first' last' r').
  Proof.
    intros -> -> ->. unfold find_range. replace (shift last <? shift first) with (last <? first) by (unfold shift; lia). destruct (_ <? _); [exact Logic.I|].
    replace (shift last - shift first) with (last - first) by (unfold shift; lia). apply fr_find_from. reflexivity.
  Qed.
  Hint Resolve fr_find_range : frame.
  Lemma eqb_shift a b : (a + len pre =? b + len pre) = (a =? b).
  Proof. lia. Qed.

  Lemma fr_mt_hasMT : forall (x0 : arrayData) (x1 : Z) (x1' : Z), x1' = x1 -> rle (fun x => x) (ReactionNumbers.mt_hasMT x0 x1) (ReactionNumbers.mt_hasMT (mv_ad x0) x1').
  Proof. intros; subst; unfold ReactionNumbers.mt_hasMT; nrm; eapply rle_bind; [fr|intros ?]; unfold shift; rewrite ?eqb_shift; fr. Qed.
  Hint Resolve fr_mt_hasMT : frame.

  Lemma fr_mt_index : forall (x0 : arrayData) (x1 : Z) (x1' : Z), x1' = x1 -> rle (fun x => x) (ReactionNumbers.mt_index x0 x1) (ReactionNumbers.mt_index (mv_ad x0) x1').
  Proof. intros; subst; unfold ReactionNumbers.mt_index; nrm; eapply rle_bind; [fr|intros ?]; unfold shift; rewrite ?eqb_shift; fr. Qed.
  Hint Resolve fr_mt_index : frame.

  Lemma fr_yp_NYP : forall bm (x1 : view) (x1' : view), x1' = mv x1 -> rle (fun x => x) (ReactionNumbers.yp_NYP bm x1) (ReactionNumbers.yp_NYP bm x1').
  Proof. intros; subst; unfold ReactionNumbers.yp_NYP; fr. Qed.
  Hint Resolve fr_yp_NYP : frame.

  Lemma fr_yp_make : forall bm (x1 : view) (x1' : view), x1' = mv x1 -> rle mv (ReactionNumbers.yp_make bm x1) (ReactionNumbers.yp_make bm x1').
  Proof. intros; subst; unfold ReactionNumbers.yp_make; fr. Qed.
  Hint Resolve fr_yp_make : frame.

  Lemma fr_yp_MT : forall bm (x1 : view) (x1' : view) (x2 : Z) (x2' : Z), x1' = mv x1 -> x2' = x2 -> rle (fun x => x) (ReactionNumbers.yp_MT bm x1 x2) (ReactionNumbers.yp_MT bm x1' x2').
  Proof. intros; subst; unfold ReactionNumbers.yp_MT; fr. Qed.
  Hint Resolve fr_yp_MT : frame.

  Lemma fr_yp_MTs : forall bm (x1 : view) (x1' : view), x1' = mv x1 -> rle (fun x => x) (ReactionNumbers.yp_MTs bm x1) (ReactionNumbers.yp_MTs bm x1').
  Proof. intros; subst; unfold ReactionNumbers.yp_MTs; fr. Qed.
  Hint Resolve fr_yp_MTs : frame.

  Lemma fr_yp_hasMT : forall (x0 : view) (x0' : view) (x1 : Z) (x1' : Z), x0' = mv x0 -> x1' = x1 -> rle (fun x => x) (ReactionNumbers.yp_hasMT x0 x1) (ReactionNumbers.yp_hasMT x0' x1').
  Proof. intros; subst; unfold ReactionNumbers.yp_hasMT; nrm; eapply rle_bind; [fr|intros ?]; unfold shift; rewrite ?eqb_shift; fr. Qed.
  Hint Resolve fr_yp_hasMT : frame.

  Lemma fr_yp_index : forall (x0 : view) (x0' : view) (x1 : Z) (x1' : Z), x0' = mv x0 -> x1' = x1 -> rle (fun x => x) (ReactionNumbers.yp_index x0 x1) (ReactionNumbers.yp_index x0' x1').
  Proof. intros; subst; unfold ReactionNumbers.yp_index; nrm; eapply rle_bind; [fr|intros ?]; unfold shift; rewrite ?eqb_shift; fr. Qed.
  Hint Resolve fr_yp_index : frame.

  Lemma fr_lq_make : forall (x0 : view) (x0' : view) (x1 : Z) (x1' : Z), x0' = mv x0 -> x1' = x1 -> rle mv_ad (ReactionNumbers.lq_make x0 x1) (ReactionNumbers.lq_make x0' x1').
  Proof. intros; subst; unfold ReactionNumbers.lq_make; fr. Qed.
  Hint Resolve fr_lq_make : frame.

  Lemma fr_lq_QValue : forall bm (x1 : arrayData) (x2 : Z) (x2' : Z), x2' = x2 -> rle (fun x => x) (ReactionNumbers.lq_QValue bm x1 x2) (ReactionNumbers.lq_QValue bm (mv_ad x1) x2').
  Proof. intros; subst; unfold ReactionNumbers.lq_QValue; fr. Qed.
  Hint Resolve fr_lq_QValue : frame.

  Lemma fr_lq_QValues : forall bm (x1 : arrayData), rle (fun x => x) (ReactionNumbers.lq_QValues bm x1) (ReactionNumbers.lq_QValues bm (mv_ad x1)).
  Proof. intros; subst; unfold ReactionNumbers.lq_QValues; fr. Qed.
  Hint Resolve fr_lq_QValues : frame.

  Lemma fr_esz_make : forall (x0 : view) (x0' : view) (x1 : Z) (x1' : Z), x0' = mv x0 -> x1' = x1 -> rle mv_ad (ReactionNumbers.esz_make x0 x1) (ReactionNumbers.esz_make x0' x1').
  Proof. intros; subst; unfold ReactionNumbers.esz_make; fr. Qed.
  Hint Resolve fr_esz_make : frame.

  Lemma fr_esz_energies : forall bm (x1 : arrayData), rle (fun x => x) (ReactionNumbers.esz_energies bm x1) (ReactionNumbers.esz_energies bm (mv_ad x1)).
  Proof. intros; subst; unfold ReactionNumbers.esz_energies; fr. Qed.
  Hint Resolve fr_esz_energies : frame.

  Lemma fr_esz_total : forall bm (x1 : arrayData), rle (fun x => x) (ReactionNumbers.esz_total bm x1) (ReactionNumbers.esz_total bm (mv_ad x1)).
  Proof. intros; subst; unfold ReactionNumbers.esz_total; fr. Qed.
  Hint Resolve fr_esz_total : frame.

  Lemma fr_esz_disappearance : forall bm (x1 : arrayData), rle (fun x => x) (ReactionNumbers.esz_disappearance bm x1) (ReactionNumbers.esz_disappearance bm (mv_ad x1)).
  Proof. intros; subst; unfold ReactionNumbers.esz_disappearance; fr. Qed.
  Hint Resolve fr_esz_disappearance : frame.

  Lemma fr_esz_elastic : forall bm (x1 : arrayData), rle (fun x => x) (ReactionNumbers.esz_elastic bm x1) (ReactionNumbers.esz_elastic bm (mv_ad x1)).
  Proof. intros; subst; unfold ReactionNumbers.esz_elastic; fr. Qed.
  Hint Resolve fr_esz_elastic : frame.

  Lemma fr_esz_heating : forall bm (x1 : arrayData), rle (fun x => x) (ReactionNumbers.esz_heating bm x1) (ReactionNumbers.esz_heating bm (mv_ad x1)).
  Proof. intros; subst; unfold ReactionNumbers.esz_heating; fr. Qed.
  Hint Resolve fr_esz_heating : frame.

  Lemma fr_hpd_energyIndex : forall bm (x1 : view) (x1' : view), x1' = mv x1 -> rle (fun x => x) (ReactionNumbers.hpd_energyIndex bm x1) (ReactionNumbers.hpd_energyIndex bm x1').
  Proof. intros; subst; unfold ReactionNumbers.hpd_energyIndex; fr. Qed.
  Hint Resolve fr_hpd_energyIndex : frame.

  Lemma fr_hpd_numberValues : forall bm (x1 : view) (x1' : view), x1' = mv x1 -> rle (fun x => x) (ReactionNumbers.hpd_numberValues bm x1) (ReactionNumbers.hpd_numberValues bm x1').
  Proof. intros; subst; unfold ReactionNumbers.hpd_numberValues; fr. Qed.
  Hint Resolve fr_hpd_numberValues : frame.

  Lemma fr_hpd_totalProduction : forall bm (x1 : view) (x1' : view), x1' = mv x1 -> rle (fun x => x) (ReactionNumbers.hpd_totalProduction bm x1) (ReactionNumbers.hpd_totalProduction bm x1').
  Proof. intros; subst; unfold ReactionNumbers.hpd_totalProduction; fr. Qed.
  Hint Resolve fr_hpd_totalProduction : frame.

  Lemma fr_hpd_heating : forall bm (x1 : view) (x1' : view), x1' = mv x1 -> rle (fun x => x) (ReactionNumbers.hpd_heating bm x1) (ReactionNumbers.hpd_heating bm x1').
  Proof. intros; subst; unfold ReactionNumbers.hpd_heating; fr. Qed.
  Hint Resolve fr_hpd_heating : frame.

  Lemma fr_hpd_make : forall bm (x1 : view) (x1' : view), x1' = mv x1 -> rle mv (ReactionNumbers.hpd_make bm x1) (ReactionNumbers.hpd_make bm x1').
  Proof. intros; subst; unfold ReactionNumbers.hpd_make; fr. Qed.
  Hint Resolve fr_hpd_make : frame.

  Lemma fr_nt_make : forall (x0 : view) (x0' : view) (x1 : Z) (x1' : Z), x0' = mv x0 -> x1' = x1 -> rle mv_nt (ReactionNumbers.nt_make x0 x1) (ReactionNumbers.nt_make x0' x1').
  Proof. intros; subst; unfold ReactionNumbers.nt_make; fr. Qed.
  Hint Resolve fr_nt_make : frame.

  Lemma fr_nt_NP : forall bm (x1 : ntro) (x2 : Z) (x2' : Z), x2' = x2 -> rle (fun x => x) (ReactionNumbers.nt_NP bm x1 x2) (ReactionNumbers.nt_NP bm (mv_nt x1) x2').
  Proof. intros; subst; unfold ReactionNumbers.nt_NP; fr. Qed.
  Hint Resolve fr_nt_NP : frame.

  Lemma fr_nt_NPs : forall bm (x1 : ntro), rle (fun x => x) (ReactionNumbers.nt_NPs bm x1) (ReactionNumbers.nt_NPs bm (mv_nt x1)).
  Proof. intros; subst; unfold ReactionNumbers.nt_NPs; fr. Qed.
  Hint Resolve fr_nt_NPs : frame.

  Lemma fr_ix_make : forall (x0 : view) (x0' : view) (x1 : Z) (x1' : Z), x0' = mv x0 -> x1' = x1 -> rle mv_nt (ReactionNumbers.ix_make x0 x1) (ReactionNumbers.ix_make x0' x1').
  Proof. intros; subst; unfold ReactionNumbers.ix_make; fr. Qed.
  Hint Resolve fr_ix_make : frame.

  Lemma fr_ix_LLOC : forall bm (x1 : ntro) (x2 : Z) (x2' : Z) (x3 : Z) (x3' : Z), x2' = x2 -> x3' = x3 -> rle (fun x => x) (ReactionNumbers.ix_LLOC bm x1 x2 x3) (ReactionNumbers.ix_LLOC bm (mv_nt x1) x2' x3').
  Proof. intros; subst; unfold ReactionNumbers.ix_LLOC; fr. Qed.
  Hint Resolve fr_ix_LLOC : frame.

  Lemma fr_pf_LNU : forall bm (x1 : view) (x1' : view), x1' = mv x1 -> rle (fun x => x) (NuBlock.pf_LNU bm x1) (NuBlock.pf_LNU bm x1').
  Proof. intros; subst; unfold NuBlock.pf_LNU; fr. Qed.
  Hint Resolve fr_pf_LNU : frame.

  Lemma fr_pf_NC : forall bm (x1 : view) (x1' : view), x1' = mv x1 -> rle (fun x => x) (NuBlock.pf_NC bm x1) (NuBlock.pf_NC bm x1').
  Proof. intros; subst; unfold NuBlock.pf_NC; fr. Qed.
  Hint Resolve fr_pf_NC : frame.

  Lemma fr_pf_C : forall bm (x1 : view) (x1' : view), x1' = mv x1 -> rle (fun x => x) (NuBlock.pf_C bm x1) (NuBlock.pf_C bm x1').
  Proof. intros; subst; unfold NuBlock.pf_C; fr. Qed.
  Hint Resolve fr_pf_C : frame.

  Lemma fr_pf_make : forall bm (x1 : view) (x1' : view), x1' = mv x1 -> rle mv (NuBlock.pf_make bm x1) (NuBlock.pf_make bm x1').
  Proof. intros; subst; unfold NuBlock.pf_make; fr. Qed.
  Hint Resolve fr_pf_make : frame.

  Lemma pf_make_v bm v p : pf_make bm v = Ok p -> p = v.
  Proof.
    unfold pf_make. destruct (pf_NC bm v); cbn [bind]; try discriminate. destruct (verify_at_least _ _); cbn [bind]; try discriminate.
    destruct (pf_LNU bm v); cbn [bind]; try discriminate. destruct (throw_if _ _); cbn [bind]; try discriminate. congruence.
  Qed.
  Lemma fr_nu_generateData bm v v' : v' = mv v -> rle mv_nud (nu_generateData bm v) (nu_generateData bm v').
  Proof.
    intros ->. unfold nu_generateData. destruct (buf v) as [|x b] eqn:Eb.
    - unfold deref. destruct (0 <=? vbeg v); [|exact Logic.I]. destruct (Z.to_nat (vbeg v)); exact Logic.I.
    - rewrite <- Eb. eapply rle_bind; [nrm; fr|intros ?]. destruct (_ =? 1).
      + pose proof (fr_pf_make bm v (mv v) eq_refl) as H. destruct (pf_make bm v) as [p| |] eqn:Ep; cbn [rle bind] in *.
        * rewrite H. cbn [bind]. apply pf_make_v in Ep. subst p. unfold mv_nud. rewrite Eb. reflexivity.
        * rewrite H. reflexivity.
        * exact Logic.I.
      + destruct (_ =? 2); [|reflexivity]. eapply rle_bind; [fr|intros ?]. reflexivity.
  Qed.
  Hint Resolve fr_nu_generateData : frame.

  Lemma fr_nu_generateBlocks : forall bm (x1 : view) (x1' : view), x1' = mv x1 -> rle mv_nu (NuBlock.nu_generateBlocks bm x1) (NuBlock.nu_generateBlocks bm x1').
  Proof. intros; subst; unfold NuBlock.nu_generateBlocks; fr. Qed.
  Hint Resolve fr_nu_generateBlocks : frame.

  Lemma fr_nu_make : forall bm (x1 : view) (x1' : view), x1' = mv x1 -> rle mv_nu (NuBlock.nu_make bm x1) (NuBlock.nu_make bm x1').
  Proof. intros; subst; unfold NuBlock.nu_make; fr. Qed.
  Hint Resolve fr_nu_make : frame.

  Lemma fr_tb_make : forall (x0 : view) (x0' : view) (x1 : double) (x2 : Z) (x2' : Z), x0' = mv x0 -> x2' = x2 -> rle mv_tb (NuBlock.tb_make x0 x1 x2) (NuBlock.tb_make x0' x1 x2').
  Proof. intros; subst; unfold NuBlock.tb_make; fr. Qed.
  Hint Resolve fr_tb_make : frame.

  Lemma fr_tb_cumulativeProbabilities : forall bm (x1 : ptable), rle (fun x => x) (NuBlock.tb_cumulativeProbabilities bm x1) (NuBlock.tb_cumulativeProbabilities bm (mv_tb x1)).
  Proof. intros; subst; unfold NuBlock.tb_cumulativeProbabilities; fr. Qed.
  Hint Resolve fr_tb_cumulativeProbabilities : frame.

  Lemma fr_tb_total : forall bm (x1 : ptable), rle (fun x => x) (NuBlock.tb_total bm x1) (NuBlock.tb_total bm (mv_tb x1)).
  Proof. intros; subst; unfold NuBlock.tb_total; fr. Qed.
  Hint Resolve fr_tb_total : frame.

  Lemma fr_tb_elastic : forall bm (x1 : ptable), rle (fun x => x) (NuBlock.tb_elastic bm x1) (NuBlock.tb_elastic bm (mv_tb x1)).
  Proof. intros; subst; unfold NuBlock.tb_elastic; fr. Qed.
  Hint Resolve fr_tb_elastic : frame.

  Lemma fr_tb_fission : forall bm (x1 : ptable), rle (fun x => x) (NuBlock.tb_fission bm x1) (NuBlock.tb_fission bm (mv_tb x1)).
  Proof. intros; subst; unfold NuBlock.tb_fission; fr. Qed.
  Hint Resolve fr_tb_fission : frame.

  Lemma fr_tb_capture : forall bm (x1 : ptable), rle (fun x => x) (NuBlock.tb_capture bm x1) (NuBlock.tb_capture bm (mv_tb x1)).
  Proof. intros; subst; unfold NuBlock.tb_capture; fr. Qed.
  Hint Resolve fr_tb_capture : frame.

  Lemma fr_tb_heating : forall bm (x1 : ptable), rle (fun x => x) (NuBlock.tb_heating bm x1) (NuBlock.tb_heating bm (mv_tb x1)).
  Proof. intros; subst; unfold NuBlock.tb_heating; fr. Qed.
  Hint Resolve fr_tb_heating : frame.

  Lemma fr_un_word : forall bm (x1 : view) (x1' : view) (x2 : Z) (x2' : Z), x1' = mv x1 -> x2' = x2 -> rle (fun x => x) (NuBlock.un_word bm x1 x2) (NuBlock.un_word bm x1' x2').
  Proof. intros; subst; unfold NuBlock.un_word; fr. Qed.
  Hint Resolve fr_un_word : frame.

  Lemma fr_un_N : forall bm (x1 : view) (x1' : view), x1' = mv x1 -> rle (fun x => x) (NuBlock.un_N bm x1) (NuBlock.un_N bm x1').
  Proof. intros; subst; unfold NuBlock.un_N; fr. Qed.
  Hint Resolve fr_un_N : frame.

  Lemma fr_un_M : forall bm (x1 : view) (x1' : view), x1' = mv x1 -> rle (fun x => x) (NuBlock.un_M bm x1) (NuBlock.un_M bm x1').
  Proof. intros; subst; unfold NuBlock.un_M; fr. Qed.
  Hint Resolve fr_un_M : frame.

  Lemma fr_un_INT : forall bm (x1 : view) (x1' : view), x1' = mv x1 -> rle (fun x => x) (NuBlock.un_INT bm x1) (NuBlock.un_INT bm x1').
  Proof. intros; subst; unfold NuBlock.un_INT; fr. Qed.
  Hint Resolve fr_un_INT : frame.

  Lemma fr_un_ILF : forall bm (x1 : view) (x1' : view), x1' = mv x1 -> rle (fun x => x) (NuBlock.un_ILF bm x1) (NuBlock.un_ILF bm x1').
  Proof. intros; subst; unfold NuBlock.un_ILF; fr. Qed.
  Hint Resolve fr_un_ILF : frame.

  Lemma fr_un_IOA : forall bm (x1 : view) (x1' : view), x1' = mv x1 -> rle (fun x => x) (NuBlock.un_IOA bm x1) (NuBlock.un_IOA bm x1').
  Proof. intros; subst; unfold NuBlock.un_IOA; fr. Qed.
  Hint Resolve fr_un_IOA : frame.

  Lemma fr_un_IFF : forall bm (x1 : view) (x1' : view), x1' = mv x1 -> rle (fun x => x) (NuBlock.un_IFF bm x1) (NuBlock.un_IFF bm x1').
  Proof. intros; subst; unfold NuBlock.un_IFF; fr. Qed.
  Hint Resolve fr_un_IFF : frame.

  Lemma fr_un_energies : forall bm (x1 : view) (x1' : view), x1' = mv x1 -> rle (fun x => x) (NuBlock.un_energies bm x1) (NuBlock.un_energies bm x1').
  Proof. intros; subst; unfold NuBlock.un_energies; fr. Qed.
  Hint Resolve fr_un_energies : frame.

  Lemma fr_un_loop bm v m n : forall left i, rle (map mv_tb) (un_loop bm v m left i n) (un_loop bm (mv v) m (left + len pre) i n).
  Proof.
    induction n as [|n IH]; intros left i; cbn [un_loop]; [reflexivity|]. cbv zeta. eapply rle_bind; [fr|intros ?]. eapply rle_bind; [fr|intros ?].
    eapply rle_bind; [|fr]. replace (adv (left + len pre) (6 * m)) with (adv left (6 * m) + len pre) by (unfold adv; lia). apply IH.
  Qed.

  Lemma fr_un_generateBlocks : forall bm (x1 : view) (x1' : view), x1' = mv x1 -> rle mv_un (NuBlock.un_generateBlocks bm x1) (NuBlock.un_generateBlocks bm x1').
  Proof. intros; subst; unfold NuBlock.un_generateBlocks; do 2 (eapply rle_bind; [fr|intros ?]). eapply rle_bind; [|fr]. nrm. replace (vbeg x1 + len pre + 6 + a0) with (vbeg x1 + 6 + a0 + len pre) by lia. apply fr_un_loop. Qed.
  Hint Resolve fr_un_generateBlocks : frame.

  Lemma fr_un_make : forall bm (x1 : view) (x1' : view), x1' = mv x1 -> rle mv_un (NuBlock.un_make bm x1) (NuBlock.un_make bm x1').
  Proof. intros; subst; unfold NuBlock.un_make; fr. Qed.
  Hint Resolve fr_un_make : frame.

  Lemma fr_un_probabilityTable : forall bm (x1 : unr) (x2 : Z) (x2' : Z), x2' = x2 -> rle mv_tb (NuBlock.un_probabilityTable bm x1 x2) (NuBlock.un_probabilityTable bm (mv_un x1) x2').
  Proof. intros; subst; unfold NuBlock.un_probabilityTable; fr. Qed.
  Hint Resolve fr_un_probabilityTable : frame.

  Lemma fr_bd_loop bm v n : forall left locator i, rle (map mv_dp) (bd_loop bm v left locator i n) (bd_loop bm (mv v) (left + len pre) locator i n).
  Proof.
    induction n as [|n IH]; intros left locator i; cbn [bd_loop]; [reflexivity|]. cbv zeta. do 2 (eapply rle_bind; [fr|intros ?]). nrm.
    eapply rle_bind; [fr|intros ?]. eapply rle_bind; [|fr].
    match goal with |- context [adv (vbeg v + len pre) ?x] => replace (adv (vbeg v + len pre) x) with (adv (vbeg v) x + len pre) by (unfold adv; lia) end. apply IH.
  Qed.

  Lemma fr_bd_generateBlocks : forall bm (x1 : view) (x1' : view) (x2 : Z) (x2' : Z), x1' = mv x1 -> x2' = x2 -> rle mv_bd (NuBlock.bd_generateBlocks bm x1 x2) (NuBlock.bd_generateBlocks bm x1' x2').
  Proof. intros; subst; unfold NuBlock.bd_generateBlocks; eapply rle_bind; [|fr]. nrm. apply fr_bd_loop. Qed.
  Hint Resolve fr_bd_generateBlocks : frame.

  Lemma fr_bd_make : forall bm (x1 : view) (x1' : view) (x2 : Z) (x2' : Z), x1' = mv x1 -> x2' = x2 -> rle mv_bd (NuBlock.bd_make bm x1 x2) (NuBlock.bd_make bm x1' x2').
  Proof. intros; subst; unfold NuBlock.bd_make; fr. Qed.
  Hint Resolve fr_bd_make : frame.

  Lemma fr_bd_precursorGroupData : forall bm (x1 : bdd) (x2 : Z) (x2' : Z), x2' = x2 -> rle mv_dp (NuBlock.bd_precursorGroupData bm x1 x2) (NuBlock.bd_precursorGroupData bm (mv_bd x1) x2').
  Proof. intros; subst; unfold NuBlock.bd_precursorGroupData; fr. Qed.
  Hint Resolve fr_bd_precursorGroupData : frame.

  Lemma fr_ed_make_e : forall (x0 : double) (x1 : view) (x1' : view) (x2 : Z) (x2' : Z), x1' = mv x1 -> x2' = x2 -> rle mv_el (ElectronBlocks.ed_make x0 x1 x2) (ElectronBlocks.ed_make x0 x1' x2').
  Proof. intros; subst; unfold ElectronBlocks.ed_make; fr. Qed.
  Hint Resolve fr_ed_make_e : frame.

  Lemma fr_ed_x : forall bm (x1 : electronDatum), rle (fun x => x) (ElectronBlocks.ed_x bm x1) (ElectronBlocks.ed_x bm (mv_el x1)).
  Proof. intros; subst; unfold ElectronBlocks.ed_x; fr. Qed.
  Hint Resolve fr_ed_x : frame.

  Lemma fr_ed_cdf : forall bm (x1 : electronDatum), rle (fun x => x) (ElectronBlocks.ed_cdf bm x1) (ElectronBlocks.ed_cdf bm (mv_el x1)).
  Proof. intros; subst; unfold ElectronBlocks.ed_cdf; fr. Qed.
  Hint Resolve fr_ed_cdf : frame.

  Lemma fr_eb_LLOC_ : forall bm (x1 : Z) (x1' : Z) (x2 : arrayData) (x3 : Z) (x3' : Z), x1' = x1 -> x3' = x3 -> rle (fun x => x) (ElectronBlocks.eb_LLOC_ bm x1 x2 x3) (ElectronBlocks.eb_LLOC_ bm x1' (mv_ad x2) x3').
  Proof. intros; subst; unfold ElectronBlocks.eb_LLOC_; fr. Qed.
  Hint Resolve fr_eb_LLOC_ : frame.

  Lemma fr_eb_energy_ : forall bm (x1 : Z) (x1' : Z) (x2 : arrayData) (x3 : Z) (x3' : Z), x1' = x1 -> x3' = x3 -> rle (fun x => x) (ElectronBlocks.eb_energy_ bm x1 x2 x3) (ElectronBlocks.eb_energy_ bm x1' (mv_ad x2) x3').
  Proof. intros; subst; unfold ElectronBlocks.eb_energy_; fr. Qed.
  Hint Resolve fr_eb_energy_ : frame.

  Lemma fr_eb_length_ : forall bm (x1 : Z) (x1' : Z) (x2 : arrayData) (x3 : Z) (x3' : Z), x1' = x1 -> x3' = x3 -> rle (fun x => x) (ElectronBlocks.eb_length_ bm x1 x2 x3) (ElectronBlocks.eb_length_ bm x1' (mv_ad x2) x3').
  Proof. intros; subst; unfold ElectronBlocks.eb_length_; fr. Qed.
  Hint Resolve fr_eb_length_ : frame.

  Lemma fr_eb_generateBlocks : forall bm (x1 : view) (x1' : view) (x2 : Z) (x2' : Z), x1' = mv x1 -> x2' = x2 -> rle mv_eb (ElectronBlocks.eb_generateBlocks bm x1 x2) (ElectronBlocks.eb_generateBlocks bm x1' x2').
  Proof. intros; subst; unfold ElectronBlocks.eb_generateBlocks; fr. Qed.
  Hint Resolve fr_eb_generateBlocks : frame.

  Lemma fr_eb_make : forall bm (x1 : view) (x1' : view) (x2 : Z) (x2' : Z), x1' = mv x1 -> x2' = x2 -> rle mv_eb (ElectronBlocks.eb_make bm x1 x2) (ElectronBlocks.eb_make bm x1' x2').
  Proof. intros; subst; unfold ElectronBlocks.eb_make; fr. Qed.
  Hint Resolve fr_eb_make : frame.

  Lemma fr_eb_LLOC : forall bm (x1 : electronBlock) (x2 : Z) (x2' : Z), x2' = x2 -> rle (fun x => x) (ElectronBlocks.eb_LLOC bm x1 x2) (ElectronBlocks.eb_LLOC bm (mv_eb x1) x2').
  Proof. intros; subst; unfold ElectronBlocks.eb_LLOC; fr. Qed.
  Hint Resolve fr_eb_LLOC : frame.

  Lemma fr_eb_energies : forall bm (x1 : electronBlock), rle (fun x => x) (ElectronBlocks.eb_energies bm x1) (ElectronBlocks.eb_energies bm (mv_eb x1)).
  Proof. intros; subst; unfold ElectronBlocks.eb_energies; fr. Qed.
  Hint Resolve fr_eb_energies : frame.

  Lemma fr_eb_lengths : forall bm (x1 : electronBlock), rle (fun x => x) (ElectronBlocks.eb_lengths bm x1) (ElectronBlocks.eb_lengths bm (mv_eb x1)).
  Proof. intros; subst; unfold ElectronBlocks.eb_lengths; fr. Qed.
  Hint Resolve fr_eb_lengths : frame.

  Lemma fr_eb_energy : forall bm (x1 : electronBlock) (x2 : Z) (x2' : Z), x2' = x2 -> rle (fun x => x) (ElectronBlocks.eb_energy bm x1 x2) (ElectronBlocks.eb_energy bm (mv_eb x1) x2').
  Proof. intros; subst; unfold ElectronBlocks.eb_energy; fr. Qed.
  Hint Resolve fr_eb_energy : frame.

  Lemma fr_eb_length : forall bm (x1 : electronBlock) (x2 : Z) (x2' : Z), x2' = x2 -> rle (fun x => x) (ElectronBlocks.eb_length bm x1 x2) (ElectronBlocks.eb_length bm (mv_eb x1) x2').
  Proof. intros; subst; unfold ElectronBlocks.eb_length; fr. Qed.
  Hint Resolve fr_eb_length : frame.

  Lemma fr_eb_datum : forall bm (x1 : electronBlock) (x2 : Z) (x2' : Z), x2' = x2 -> rle mv_el (ElectronBlocks.eb_datum bm x1 x2) (ElectronBlocks.eb_datum bm (mv_eb x1) x2').
  Proof. intros; subst; unfold ElectronBlocks.eb_datum; fr. Qed.
  Hint Resolve fr_eb_datum : frame.

  Lemma fr_two_make_a : forall (x0 : view) (x0' : view) (x1 : Z) (x1' : Z), x0' = mv x0 -> x1' = x1 -> rle mv_ad (AtomicBlocks.two_make x0 x1) (AtomicBlocks.two_make x0' x1').
  Proof. intros; subst; unfold AtomicBlocks.two_make; fr. Qed.
  Hint Resolve fr_two_make_a : frame.

  Lemma fr_two_first : forall bm (x1 : arrayData), rle (fun x => x) (AtomicBlocks.two_first bm x1) (AtomicBlocks.two_first bm (mv_ad x1)).
  Proof. intros; subst; unfold AtomicBlocks.two_first; fr. Qed.
  Hint Resolve fr_two_first : frame.

  Lemma fr_two_second : forall bm (x1 : arrayData), rle (fun x => x) (AtomicBlocks.two_second bm x1) (AtomicBlocks.two_second bm (mv_ad x1)).
  Proof. intros; subst; unfold AtomicBlocks.two_second; fr. Qed.
  Hint Resolve fr_two_second : frame.

  Lemma fr_ep_make : forall (x0 : view) (x0' : view) (x1 : Z) (x1' : Z), x0' = mv x0 -> x1' = x1 -> rle mv_ad (AtomicBlocks.ep_make x0 x1) (AtomicBlocks.ep_make x0' x1').
  Proof. intros; subst; unfold AtomicBlocks.ep_make; fr. Qed.
  Hint Resolve fr_ep_make : frame.

  Lemma fr_ep_LNEPS : forall bm (x1 : arrayData), rle (fun x => x) (AtomicBlocks.ep_LNEPS bm x1) (AtomicBlocks.ep_LNEPS bm (mv_ad x1)).
  Proof. intros; subst; unfold AtomicBlocks.ep_LNEPS; fr. Qed.
  Hint Resolve fr_ep_LNEPS : frame.

  Lemma fr_ep_LBEPS : forall bm (x1 : arrayData), rle (fun x => x) (AtomicBlocks.ep_LBEPS bm x1) (AtomicBlocks.ep_LBEPS bm (mv_ad x1)).
  Proof. intros; subst; unfold AtomicBlocks.ep_LBEPS; fr. Qed.
  Hint Resolve fr_ep_LBEPS : frame.

  Lemma fr_ep_LPIPS : forall bm (x1 : arrayData), rle (fun x => x) (AtomicBlocks.ep_LPIPS bm x1) (AtomicBlocks.ep_LPIPS bm (mv_ad x1)).
  Proof. intros; subst; unfold AtomicBlocks.ep_LPIPS; fr. Qed.
  Hint Resolve fr_ep_LPIPS : frame.

  Lemma fr_ep_numberElectronsPerShell : forall bm (x1 : arrayData) (x2 : Z) (x2' : Z), x2' = x2 -> rle (fun x => x) (AtomicBlocks.ep_numberElectronsPerShell bm x1 x2) (AtomicBlocks.ep_numberElectronsPerShell bm (mv_ad x1) x2').
  Proof. intros; subst; unfold AtomicBlocks.ep_numberElectronsPerShell; fr. Qed.
  Hint Resolve fr_ep_numberElectronsPerShell : frame.

  Lemma fr_ep_bindingEnergy : forall bm (x1 : arrayData) (x2 : Z) (x2' : Z), x2' = x2 -> rle (fun x => x) (AtomicBlocks.ep_bindingEnergy bm x1 x2) (AtomicBlocks.ep_bindingEnergy bm (mv_ad x1) x2').
  Proof. intros; subst; unfold AtomicBlocks.ep_bindingEnergy; fr. Qed.
  Hint Resolve fr_ep_bindingEnergy : frame.

  Lemma fr_ep_interactionProbability : forall bm (x1 : arrayData) (x2 : Z) (x2' : Z), x2' = x2 -> rle (fun x => x) (AtomicBlocks.ep_interactionProbability bm x1 x2) (AtomicBlocks.ep_interactionProbability bm (mv_ad x1) x2').
  Proof. intros; subst; unfold AtomicBlocks.ep_interactionProbability; fr. Qed.
  Hint Resolve fr_ep_interactionProbability : frame.

  Lemma fr_ss_make : forall (x0 : view) (x0' : view) (x1 : Z) (x1' : Z), x0' = mv x0 -> x1' = x1 -> rle mv_ad (AtomicBlocks.ss_make x0 x1) (AtomicBlocks.ss_make x0' x1').
  Proof. intros; subst; unfold AtomicBlocks.ss_make; fr. Qed.
  Hint Resolve fr_ss_make : frame.

  Lemma fr_ss_ID : forall bm (x1 : arrayData), rle (fun x => x) (AtomicBlocks.ss_ID bm x1) (AtomicBlocks.ss_ID bm (mv_ad x1)).
  Proof. intros; subst; unfold AtomicBlocks.ss_ID; fr. Qed.
  Hint Resolve fr_ss_ID : frame.

  Lemma fr_ss_EP : forall bm (x1 : arrayData), rle (fun x => x) (AtomicBlocks.ss_EP bm x1) (AtomicBlocks.ss_EP bm (mv_ad x1)).
  Proof. intros; subst; unfold AtomicBlocks.ss_EP; fr. Qed.
  Hint Resolve fr_ss_EP : frame.

  Lemma fr_ss_BE : forall bm (x1 : arrayData), rle (fun x => x) (AtomicBlocks.ss_BE bm x1) (AtomicBlocks.ss_BE bm (mv_ad x1)).
  Proof. intros; subst; unfold AtomicBlocks.ss_BE; fr. Qed.
  Hint Resolve fr_ss_BE : frame.

  Lemma fr_ss_CV : forall bm (x1 : arrayData), rle (fun x => x) (AtomicBlocks.ss_CV bm x1) (AtomicBlocks.ss_CV bm (mv_ad x1)).
  Proof. intros; subst; unfold AtomicBlocks.ss_CV; fr. Qed.
  Hint Resolve fr_ss_CV : frame.

  Lemma fr_ss_NT : forall bm (x1 : arrayData), rle (fun x => x) (AtomicBlocks.ss_NT bm x1) (AtomicBlocks.ss_NT bm (mv_ad x1)).
  Proof. intros; subst; unfold AtomicBlocks.ss_NT; fr. Qed.
  Hint Resolve fr_ss_NT : frame.

  Lemma fr_ss_designator : forall bm (x1 : arrayData) (x2 : Z) (x2' : Z), x2' = x2 -> rle (fun x => x) (AtomicBlocks.ss_designator bm x1 x2) (AtomicBlocks.ss_designator bm (mv_ad x1) x2').
  Proof. intros; subst; unfold AtomicBlocks.ss_designator; fr. Qed.
  Hint Resolve fr_ss_designator : frame.

  Lemma fr_ss_population : forall bm (x1 : arrayData) (x2 : Z) (x2' : Z), x2' = x2 -> rle (fun x => x) (AtomicBlocks.ss_population bm x1 x2) (AtomicBlocks.ss_population bm (mv_ad x1) x2').
  Proof. intros; subst; unfold AtomicBlocks.ss_population; fr. Qed.
  Hint Resolve fr_ss_population : frame.

  Lemma fr_ss_bindingEnergy : forall bm (x1 : arrayData) (x2 : Z) (x2' : Z), x2' = x2 -> rle (fun x => x) (AtomicBlocks.ss_bindingEnergy bm x1 x2) (AtomicBlocks.ss_bindingEnergy bm (mv_ad x1) x2').
  Proof. intros; subst; unfold AtomicBlocks.ss_bindingEnergy; fr. Qed.
  Hint Resolve fr_ss_bindingEnergy : frame.

  Lemma fr_ss_vacancyProbability : forall bm (x1 : arrayData) (x2 : Z) (x2' : Z), x2' = x2 -> rle (fun x => x) (AtomicBlocks.ss_vacancyProbability bm x1 x2) (AtomicBlocks.ss_vacancyProbability bm (mv_ad x1) x2').
  Proof. intros; subst; unfold AtomicBlocks.ss_vacancyProbability; fr. Qed.
  Hint Resolve fr_ss_vacancyProbability : frame.

  Lemma fr_ss_numberTransitions : forall bm (x1 : arrayData) (x2 : Z) (x2' : Z), x2' = x2 -> rle (fun x => x) (AtomicBlocks.ss_numberTransitions bm x1 x2) (AtomicBlocks.ss_numberTransitions bm (mv_ad x1) x2').
  Proof. intros; subst; unfold AtomicBlocks.ss_numberTransitions; fr. Qed.
  Hint Resolve fr_ss_numberTransitions : frame.

  Lemma fr_ez_make : forall (x0 : view) (x0' : view) (x1 : Z) (x1' : Z) (x2 : Z) (x2' : Z), x0' = mv x0 -> x1' = x1 -> x2' = x2 -> rle mv_ad (AtomicBlocks.ez_make x0 x1 x2) (AtomicBlocks.ez_make x0' x1' x2').
  Proof. intros; subst; unfold AtomicBlocks.ez_make; fr. Qed.
  Hint Resolve fr_ez_make : frame.

  Lemma fr_ez_energies : forall bm (x1 : arrayData), rle (fun x => x) (AtomicBlocks.ez_energies bm x1) (AtomicBlocks.ez_energies bm (mv_ad x1)).
  Proof. intros; subst; unfold AtomicBlocks.ez_energies; fr. Qed.
  Hint Resolve fr_ez_energies : frame.

  Lemma fr_ez_total : forall bm (x1 : arrayData), rle (fun x => x) (AtomicBlocks.ez_total bm x1) (AtomicBlocks.ez_total bm (mv_ad x1)).
  Proof. intros; subst; unfold AtomicBlocks.ez_total; fr. Qed.
  Hint Resolve fr_ez_total : frame.

  Lemma fr_ez_elastic : forall bm (x1 : arrayData), rle (fun x => x) (AtomicBlocks.ez_elastic bm x1) (AtomicBlocks.ez_elastic bm (mv_ad x1)).
  Proof. intros; subst; unfold AtomicBlocks.ez_elastic; fr. Qed.
  Hint Resolve fr_ez_elastic : frame.

  Lemma fr_ez_bremsstrahlung : forall bm (x1 : arrayData), rle (fun x => x) (AtomicBlocks.ez_bremsstrahlung bm x1) (AtomicBlocks.ez_bremsstrahlung bm (mv_ad x1)).
  Proof. intros; subst; unfold AtomicBlocks.ez_bremsstrahlung; fr. Qed.
  Hint Resolve fr_ez_bremsstrahlung : frame.

  Lemma fr_ez_excitation : forall bm (x1 : arrayData), rle (fun x => x) (AtomicBlocks.ez_excitation bm x1) (AtomicBlocks.ez_excitation bm (mv_ad x1)).
  Proof. intros; subst; unfold AtomicBlocks.ez_excitation; fr. Qed.
  Hint Resolve fr_ez_excitation : frame.

  Lemma fr_ez_totalElectroionisation : forall bm (x1 : arrayData), rle (fun x => x) (AtomicBlocks.ez_totalElectroionisation bm x1) (AtomicBlocks.ez_totalElectroionisation bm (mv_ad x1)).
  Proof. intros; subst; unfold AtomicBlocks.ez_totalElectroionisation; fr. Qed.
  Hint Resolve fr_ez_totalElectroionisation : frame.

  Lemma fr_ez_electroionisation : forall bm (x1 : arrayData) (x2 : Z) (x2' : Z), x2' = x2 -> rle (fun x => x) (AtomicBlocks.ez_electroionisation bm x1 x2) (AtomicBlocks.ez_electroionisation bm (mv_ad x1) x2').
  Proof. intros; subst; unfold AtomicBlocks.ez_electroionisation, ez_NSSH; fr. Qed.
  Hint Resolve fr_ez_electroionisation : frame.

  Lemma fr_tr_make : forall (x0 : view) (x0' : view), x0' = mv x0 -> rle mv_ad (AtomicBlocks.tr_make x0) (AtomicBlocks.tr_make x0').
  Proof. intros; subst; unfold AtomicBlocks.tr_make; fr. Qed.
  Hint Resolve fr_tr_make : frame.

  Lemma fr_tr_transition : forall bm (x1 : arrayData) (x2 : Z) (x2' : Z), x2' = x2 -> rle (fun x => x) (AtomicBlocks.tr_transition bm x1 x2) (AtomicBlocks.tr_transition bm (mv_ad x1) x2').
  Proof. intros; subst; unfold AtomicBlocks.tr_transition; fr. Qed.
  Hint Resolve fr_tr_transition : frame.

  Lemma fr_tr_primaryDesignator : forall bm (x1 : arrayData) (x2 : Z) (x2' : Z), x2' = x2 -> rle (fun x => x) (AtomicBlocks.tr_primaryDesignator bm x1 x2) (AtomicBlocks.tr_primaryDesignator bm (mv_ad x1) x2').
  Proof. intros; subst; unfold AtomicBlocks.tr_primaryDesignator; fr. Qed.
  Hint Resolve fr_tr_primaryDesignator : frame.

  Lemma fr_tr_secondaryDesignator : forall bm (x1 : arrayData) (x2 : Z) (x2' : Z), x2' = x2 -> rle (fun x => x) (AtomicBlocks.tr_secondaryDesignator bm x1 x2) (AtomicBlocks.tr_secondaryDesignator bm (mv_ad x1) x2').
  Proof. intros; subst; unfold AtomicBlocks.tr_secondaryDesignator; fr. Qed.
  Hint Resolve fr_tr_secondaryDesignator : frame.

  Lemma fr_tr_energy : forall bm (x1 : arrayData) (x2 : Z) (x2' : Z), x2' = x2 -> rle (fun x => x) (AtomicBlocks.tr_energy bm x1 x2) (AtomicBlocks.tr_energy bm (mv_ad x1) x2').
  Proof. intros; subst; unfold AtomicBlocks.tr_energy; fr. Qed.
  Hint Resolve fr_tr_energy : frame.

  Lemma fr_tr_probability : forall bm (x1 : arrayData) (x2 : Z) (x2' : Z), x2' = x2 -> rle (fun x => x) (AtomicBlocks.tr_probability bm x1 x2) (AtomicBlocks.tr_probability bm (mv_ad x1) x2').
  Proof. intros; subst; unfold AtomicBlocks.tr_probability; fr. Qed.
  Hint Resolve fr_tr_probability : frame.

  Lemma fr_tr_isRadiative : forall bm (x1 : arrayData) (x2 : Z) (x2' : Z), x2' = x2 -> rle (fun x => x) (AtomicBlocks.tr_isRadiative bm x1 x2) (AtomicBlocks.tr_isRadiative bm (mv_ad x1) x2').
  Proof. intros; subst; unfold AtomicBlocks.tr_isRadiative; fr. Qed.
  Hint Resolve fr_tr_isRadiative : frame.

  Lemma fr_xp_gd : forall (x0 : Z) (x0' : Z) (x1 : view) (x1' : view), x0' = x0 -> x1' = mv x1 -> rle mv_ad (AtomicBlocks.xp_gd x0 x1) (AtomicBlocks.xp_gd x0' x1').
  Proof. intros; subst; unfold AtomicBlocks.xp_gd; fr. Qed.
  Hint Resolve fr_xp_gd : frame.

  Lemma fr_eg_make : forall (x0 : view) (x0' : view) (x1 : Z) (x1' : Z), x0' = mv x0 -> x1' = x1 -> rle mv_ad (AtomicBlocks.eg_make x0 x1) (AtomicBlocks.eg_make x0' x1').
  Proof. intros; subst; unfold AtomicBlocks.eg_make; fr. Qed.
  Hint Resolve fr_eg_make : frame.

  Lemma fr_eg_energies : forall bm (x1 : arrayData), rle (fun x => x) (AtomicBlocks.eg_energies bm x1) (AtomicBlocks.eg_energies bm (mv_ad x1)).
  Proof. intros; subst; unfold AtomicBlocks.eg_energies; fr. Qed.
  Hint Resolve fr_eg_energies : frame.

  Lemma fr_eg_incoherent : forall bm (x1 : arrayData), rle (fun x => x) (AtomicBlocks.eg_incoherent bm x1) (AtomicBlocks.eg_incoherent bm (mv_ad x1)).
  Proof. intros; subst; unfold AtomicBlocks.eg_incoherent; fr. Qed.
  Hint Resolve fr_eg_incoherent : frame.

  Lemma fr_eg_coherent : forall bm (x1 : arrayData), rle (fun x => x) (AtomicBlocks.eg_coherent bm x1) (AtomicBlocks.eg_coherent bm (mv_ad x1)).
  Proof. intros; subst; unfold AtomicBlocks.eg_coherent; fr. Qed.
  Hint Resolve fr_eg_coherent : frame.

  Lemma fr_eg_photoelectric : forall bm (x1 : arrayData), rle (fun x => x) (AtomicBlocks.eg_photoelectric bm x1) (AtomicBlocks.eg_photoelectric bm (mv_ad x1)).
  Proof. intros; subst; unfold AtomicBlocks.eg_photoelectric; fr. Qed.
  Hint Resolve fr_eg_photoelectric : frame.

  Lemma fr_eg_pairproduction : forall bm (x1 : arrayData), rle (fun x => x) (AtomicBlocks.eg_pairproduction bm x1) (AtomicBlocks.eg_pairproduction bm (mv_ad x1)).
  Proof. intros; subst; unfold AtomicBlocks.eg_pairproduction; fr. Qed.
  Hint Resolve fr_eg_pairproduction : frame.

  Lemma fr_jf_make : forall (x0 : view) (x0' : view) (x1 : Z) (x1' : Z), x0' = mv x0 -> x1' = x1 -> rle mv_ad (AtomicBlocks.jf_make x0 x1) (AtomicBlocks.jf_make x0' x1').
  Proof. intros; subst; unfold AtomicBlocks.jf_make; fr. Qed.
  Hint Resolve fr_jf_make : frame.

  Lemma fr_jf_E : forall bm (x1 : arrayData), rle (fun x => x) (AtomicBlocks.jf_E bm x1) (AtomicBlocks.jf_E bm (mv_ad x1)).
  Proof. intros; subst; unfold AtomicBlocks.jf_E; fr. Qed.
  Hint Resolve fr_jf_E : frame.

  Lemma fr_jf_PHI : forall bm (x1 : arrayData), rle (fun x => x) (AtomicBlocks.jf_PHI bm x1) (AtomicBlocks.jf_PHI bm (mv_ad x1)).
  Proof. intros; subst; unfold AtomicBlocks.jf_PHI; fr. Qed.
  Hint Resolve fr_jf_PHI : frame.

  Lemma fr_jf_Y : forall bm (x1 : arrayData), rle (fun x => x) (AtomicBlocks.jf_Y bm x1) (AtomicBlocks.jf_Y bm (mv_ad x1)).
  Proof. intros; subst; unfold AtomicBlocks.jf_Y; fr. Qed.
  Hint Resolve fr_jf_Y : frame.

  Lemma fr_jf_F : forall bm (x1 : arrayData), rle (fun x => x) (AtomicBlocks.jf_F bm x1) (AtomicBlocks.jf_F bm (mv_ad x1)).
  Proof. intros; subst; unfold AtomicBlocks.jf_F; fr. Qed.
  Hint Resolve fr_jf_F : frame.

  Lemma fr_sp_make : forall (x0 : view) (x0' : view) (x1 : Z) (x1' : Z) (x2 : Z) (x2' : Z), x0' = mv x0 -> x1' = x1 -> x2' = x2 -> rle mv_ad (AtomicBlocks.sp_make x0 x1 x2) (AtomicBlocks.sp_make x0' x1' x2').
  Proof. intros; subst; unfold AtomicBlocks.sp_make; fr. Qed.
  Hint Resolve fr_sp_make : frame.

  Lemma fr_sp_photoelectric : forall bm (x1 : arrayData) (x2 : Z) (x2' : Z), x2' = x2 -> rle (fun x => x) (AtomicBlocks.sp_photoelectric bm x1 x2) (AtomicBlocks.sp_photoelectric bm (mv_ad x1) x2').
  Proof. intros; subst; unfold AtomicBlocks.sp_photoelectric, sp_NSSH; fr. Qed.
  Hint Resolve fr_sp_photoelectric : frame.

  Lemma fr_ji_make : forall (x0 : view) (x0' : view), x0' = mv x0 -> rle mv_ji (AtomicBlocks.ji_make x0) (AtomicBlocks.ji_make x0').
  Proof. intros; subst; unfold AtomicBlocks.ji_make; fr. Qed.
  Hint Resolve fr_ji_make : frame.

  Lemma fr_ji_momentum : forall bm (x1 : jinc), rle (fun x => x) (AtomicBlocks.ji_momentum bm x1) (AtomicBlocks.ji_momentum bm (mv_ji x1)).
  Proof. intros; subst; unfold AtomicBlocks.ji_momentum; fr. Qed.
  Hint Resolve fr_ji_momentum : frame.

  Lemma fr_ji_values : forall bm (x1 : jinc), rle (fun x => x) (AtomicBlocks.ji_values bm x1) (AtomicBlocks.ji_values bm (mv_ji x1)).
  Proof. intros; subst; unfold AtomicBlocks.ji_values; fr. Qed.
  Hint Resolve fr_ji_values : frame.

  Lemma fr_jc_make : forall (x0 : view) (x0' : view), x0' = mv x0 -> rle mv_ji (AtomicBlocks.jc_make x0) (AtomicBlocks.jc_make x0').
  Proof. intros; subst; unfold AtomicBlocks.jc_make; fr. Qed.
  Hint Resolve fr_jc_make : frame.

  Lemma fr_jc_integrated : forall bm (x1 : jinc), rle (fun x => x) (AtomicBlocks.jc_integrated bm x1) (AtomicBlocks.jc_integrated bm (mv_ji x1)).
  Proof. intros; subst; unfold AtomicBlocks.jc_integrated; fr. Qed.
  Hint Resolve fr_jc_integrated : frame.

  Lemma fr_jc_factors : forall bm (x1 : jinc), rle (fun x => x) (AtomicBlocks.jc_factors bm x1) (AtomicBlocks.jc_factors bm (mv_ji x1)).
  Proof. intros; subst; unfold AtomicBlocks.jc_factors; fr. Qed.
  Hint Resolve fr_jc_factors : frame.

  Lemma fr_swd_gd : forall bm (x1 : Z) (x1' : Z) (x2 : view) (x2' : view), x1' = x1 -> x2' = mv x2 -> rle mv (AtomicBlocks.swd_gd bm x1 x2) (AtomicBlocks.swd_gd bm x1' x2').
  Proof. intros; subst; unfold AtomicBlocks.swd_gd; fr. Qed.
  Hint Resolve fr_swd_gd : frame.

  Lemma fr_sigd_gd : forall bm (x1 : Z) (x1' : Z) (x2 : view) (x2' : view), x1' = x1 -> x2' = mv x2 -> rle mv_td (AtomicBlocks.sigd_gd bm x1 x2) (AtomicBlocks.sigd_gd bm x1' x2').
  Proof. intros; subst; unfold AtomicBlocks.sigd_gd; fr. Qed.
  Hint Resolve fr_sigd_gd : frame.

  Lemma fr_eu_make : forall (x0 : view) (x0' : view) (x1 : Z) (x1' : Z) (x2 : Z) (x2' : Z), x0' = mv x0 -> x1' = x1 -> x2' = x2 -> rle mv_ad (AtomicBlocks.eu_make x0 x1 x2) (AtomicBlocks.eu_make x0' x1' x2').
  Proof. intros; subst; unfold AtomicBlocks.eu_make; fr. Qed.
  Hint Resolve fr_eu_make : frame.

  Lemma fr_eu_energies : forall bm (x1 : arrayData), rle (fun x => x) (AtomicBlocks.eu_energies bm x1) (AtomicBlocks.eu_energies bm (mv_ad x1)).
  Proof. intros; subst; unfold AtomicBlocks.eu_energies; fr. Qed.
  Hint Resolve fr_eu_energies : frame.

  Lemma fr_eu_total : forall bm (x1 : arrayData), rle (fun x => x) (AtomicBlocks.eu_total bm x1) (AtomicBlocks.eu_total bm (mv_ad x1)).
  Proof. intros; subst; unfold AtomicBlocks.eu_total; fr. Qed.
  Hint Resolve fr_eu_total : frame.

  Lemma fr_eu_elastic : forall bm (x1 : arrayData), rle (fun x => x) (AtomicBlocks.eu_elastic bm x1) (AtomicBlocks.eu_elastic bm (mv_ad x1)).
  Proof. intros; subst; unfold AtomicBlocks.eu_elastic; fr. Qed.
  Hint Resolve fr_eu_elastic : frame.

  Lemma fr_eu_heating : forall bm (x1 : arrayData), rle (fun x => x) (AtomicBlocks.eu_heating bm x1) (AtomicBlocks.eu_heating bm (mv_ad x1)).
  Proof. intros; subst; unfold AtomicBlocks.eu_heating; fr. Qed.
  Hint Resolve fr_eu_heating : frame.

  Lemma fr_iu_make : forall (x0 : view) (x0' : view) (x1 : Z) (x1' : Z), x0' = mv x0 -> x1' = x1 -> rle mv_nt (AtomicBlocks.iu_make x0 x1) (AtomicBlocks.iu_make x0' x1').
  Proof. intros; subst; unfold AtomicBlocks.iu_make; fr. Qed.
  Hint Resolve fr_iu_make : frame.

  Lemma fr_iu_LLOC : forall bm (x1 : ntro) (x2 : Z) (x2' : Z) (x3 : Z) (x3' : Z), x2' = x2 -> x3' = x3 -> rle (fun x => x) (AtomicBlocks.iu_LLOC bm x1 x2 x3) (AtomicBlocks.iu_LLOC bm (mv_nt x1) x2' x3').
  Proof. intros; subst; unfold AtomicBlocks.iu_LLOC; fr. Qed.
  Hint Resolve fr_iu_LLOC : frame.

  Lemma fr_iu_IP : forall bm (x1 : ntro) (x2 : Z) (x2' : Z), x2' = x2 -> rle (fun x => x) (AtomicBlocks.iu_IP bm x1 x2) (AtomicBlocks.iu_IP bm (mv_nt x1) x2').
  Proof. intros; subst; unfold AtomicBlocks.iu_IP; fr. Qed.
  Hint Resolve fr_iu_IP : frame.

  Lemma fr_iu_NP : forall bm (x1 : ntro) (x2 : Z) (x2' : Z), x2' = x2 -> rle (fun x => x) (AtomicBlocks.iu_NP bm x1 x2) (AtomicBlocks.iu_NP bm (mv_nt x1) x2').
  Proof. intros; subst; unfold AtomicBlocks.iu_NP; fr. Qed.
  Hint Resolve fr_iu_NP : frame.

  Lemma fr_iu_find bm o type n : forall i, rle (fun x => x) (iu_find bm o type i n) (iu_find bm (mv_nt o) type i n).
  Proof. induction n as [|n IH]; intros i; cbn [iu_find]; fr. Qed.
  Hint Resolve fr_iu_find : frame.

  Lemma fr_iu_hasIP : forall bm (x1 : ntro) (x2 : Z) (x2' : Z), x2' = x2 -> rle (fun x => x) (AtomicBlocks.iu_hasIP bm x1 x2) (AtomicBlocks.iu_hasIP bm (mv_nt x1) x2').
  Proof. intros; subst; unfold AtomicBlocks.iu_hasIP; fr. Qed.
  Hint Resolve fr_iu_hasIP : frame.

  Lemma fr_iu_index : forall bm (x1 : ntro) (x2 : Z) (x2' : Z), x2' = x2 -> rle (fun x => x) (AtomicBlocks.iu_index bm x1 x2) (AtomicBlocks.iu_index bm (mv_nt x1) x2').
  Proof. intros; subst; unfold AtomicBlocks.iu_index; fr. Qed.
  Hint Resolve fr_iu_index : frame.

  Lemma fr_tc_make : forall (x0 : view) (x0' : view), x0' = mv x0 -> rle mv_cd (ThermalBlocks.tc_make x0) (ThermalBlocks.tc_make x0').
  Proof. intros; subst; unfold ThermalBlocks.tc_make; fr. Qed.
  Hint Resolve fr_tc_make : frame.

  Lemma fr_tc_NE : forall bm (x1 : columnData), rle (fun x => x) (ThermalBlocks.tc_NE bm x1) (ThermalBlocks.tc_NE bm (mv_cd x1)).
  Proof. intros; subst; unfold ThermalBlocks.tc_NE; fr. Qed.
  Hint Resolve fr_tc_NE : frame.

  Lemma fr_tc_energies : forall bm (x1 : columnData), rle (fun x => x) (ThermalBlocks.tc_energies bm x1) (ThermalBlocks.tc_energies bm (mv_cd x1)).
  Proof. intros; subst; unfold ThermalBlocks.tc_energies; fr. Qed.
  Hint Resolve fr_tc_energies : frame.

  Lemma fr_tc_crossSections : forall bm (x1 : columnData), rle (fun x => x) (ThermalBlocks.tc_crossSections bm x1) (ThermalBlocks.tc_crossSections bm (mv_cd x1)).
  Proof. intros; subst; unfold ThermalBlocks.tc_crossSections; fr. Qed.
  Hint Resolve fr_tc_crossSections : frame.

  Lemma fr_te_make : forall (x0 : view) (x0' : view) (x1 : Z) (x1' : Z) (x2 : Z) (x2' : Z), x0' = mv x0 -> x1' = x1 -> x2' = x2 -> rle mv_ad (ThermalBlocks.te_make x0 x1 x2) (ThermalBlocks.te_make x0' x1' x2').
  Proof. intros; subst; unfold ThermalBlocks.te_make; fr. Qed.
  Hint Resolve fr_te_make : frame.

  Lemma fr_te_cosines : forall bm (x1 : arrayData) (x2 : Z) (x2' : Z), x2' = x2 -> rle (fun x => x) (ThermalBlocks.te_cosines bm x1 x2) (ThermalBlocks.te_cosines bm (mv_ad x1) x2').
  Proof. intros; subst; unfold ThermalBlocks.te_cosines; fr. Qed.
  Hint Resolve fr_te_cosines : frame.

  Lemma fr_dc_make : forall (x0 : Z) (x0' : Z) (x1 : view) (x1' : view), x0' = x0 -> x1' = mv x1 -> rle mv_cos (ThermalBlocks.dc_make x0 x1) (ThermalBlocks.dc_make x0' x1').
  Proof. intros; subst; unfold ThermalBlocks.dc_make; fr. Qed.
  Hint Resolve fr_dc_make : frame.

  Lemma fr_dq_make : forall (x0 : Z) (x0' : Z) (x1 : view) (x1' : view), x0' = x0 -> x1' = mv x1 -> rle mv_cos (ThermalBlocks.dq_make x0 x1) (ThermalBlocks.dq_make x0' x1').
  Proof. intros; subst; unfold ThermalBlocks.dq_make; fr. Qed.
  Hint Resolve fr_dq_make : frame.

  Lemma fr_cos_energy : forall bm (x1 : cosData), rle (fun x => x) (ThermalBlocks.cos_energy bm x1) (ThermalBlocks.cos_energy bm (mv_cos x1)).
  Proof. intros bm [] *; unfold ThermalBlocks.cos_energy; fr. Qed.
  Hint Resolve fr_cos_energy : frame.

  Lemma fr_cos_cosines : forall bm (x1 : cosData), rle (fun x => x) (ThermalBlocks.cos_cosines bm x1) (ThermalBlocks.cos_cosines bm (mv_cos x1)).
  Proof. intros bm [] *; unfold ThermalBlocks.cos_cosines; fr. Qed.
  Hint Resolve fr_cos_cosines : frame.

  Lemma fr_cos_pdf : forall bm (x1 : view) (x1' : view), x1' = mv x1 -> rle (fun x => x) (ThermalBlocks.cos_pdf bm x1) (ThermalBlocks.cos_pdf bm x1').
  Proof. intros; subst; unfold ThermalBlocks.cos_pdf; fr. Qed.
  Hint Resolve fr_cos_pdf : frame.

  Lemma fr_cos_cdf : forall bm (x1 : view) (x1' : view), x1' = mv x1 -> rle (fun x => x) (ThermalBlocks.cos_cdf bm x1) (ThermalBlocks.cos_cdf bm x1').
  Proof. intros; subst; unfold ThermalBlocks.cos_cdf; fr. Qed.
  Hint Resolve fr_cos_cdf : frame.

  Lemma fr_it_LOCC : forall bm (x1 : itxe) (x2 : Z) (x2' : Z), x2' = x2 -> rle (fun x => x) (ThermalBlocks.it_LOCC bm x1 x2) (ThermalBlocks.it_LOCC bm (mv_it x1) x2').
  Proof. intros; subst; unfold ThermalBlocks.it_LOCC; fr. Qed.
  Hint Resolve fr_it_LOCC : frame.

  Lemma fr_it_relative : forall bm (x1 : itxe) (x2 : Z) (x2' : Z), x2' = x2 -> rle (fun x => x) (ThermalBlocks.it_relative bm x1 x2) (ThermalBlocks.it_relative bm (mv_it x1) x2').
  Proof. intros; subst; unfold ThermalBlocks.it_relative; fr. Qed.
  Hint Resolve fr_it_relative : frame.

  Lemma fr_it_NIEB : forall bm (x1 : itxe) (x2 : Z) (x2' : Z), x2' = x2 -> rle (fun x => x) (ThermalBlocks.it_NIEB bm x1 x2) (ThermalBlocks.it_NIEB bm (mv_it x1) x2').
  Proof. intros; subst; unfold ThermalBlocks.it_NIEB, it_verifyIndex; fr. Qed.
  Hint Resolve fr_it_NIEB : frame.

  Lemma fr_it_at {A} (f : A -> A) l i : rle f (it_at l i) (it_at (map f l) i).
  Proof. unfold it_at, nth_or_UB. destruct (i <? 0); [exact Logic.I|]. rewrite nth_error_map. destruct (nth_error l _); reflexivity. Qed.

  Lemma fr_it_cosineData : forall bm (x1 : itxe) (x2 : Z) (x2' : Z) (x3 : Z) (x3' : Z), x2' = x2 -> x3' = x3 -> rle mv_cos (ThermalBlocks.it_cosineData bm x1 x2 x3) (ThermalBlocks.it_cosineData bm (mv_it x1) x2' x3').
  Proof. intros; subst; unfold ThermalBlocks.it_cosineData, it_verifyIndex. eapply rle_bind; [instantiate (1 := fun x => x); fr|intros ?]. eapply rle_bind; [apply fr_it_at|intros l]. apply fr_it_at. Qed.
  Hint Resolve fr_it_cosineData : frame.

  Definition mv_cp (r : list cosData * Z) : list cosData * Z := (map mv_cos (fst r), snd r + len pre).
  Lemma fr_it_out01 nc v n : forall current, rle mv_cp (it_out01 nc v n current) (it_out01 nc (mv v) n (current + len pre)).
  Proof.
    induction n as [|n IH]; intros current; cbn [it_out01]; [reflexivity|]. cbv zeta. eapply rle_bind; [fr|intros d].
    replace (adv (adv (current + len pre) nc) 1) with (adv (adv current nc) 1 + len pre) by (unfold adv; lia). eapply rle_bind; [apply IH|intros r]. reflexivity.
  Qed.
  Lemma fr_it_in01 bm o n : forall i current, rle (map (map mv_cos)) (it_in01 bm o n i current) (it_in01 bm (mv_it o) n i (current + len pre)).
  Proof.
    induction n as [|n IH]; intros i current; cbn [it_in01]; [reflexivity|]. eapply rle_bind; [fr|intros nieb].
    eapply rle_bind; [apply fr_it_out01|intros r]. eapply rle_bind; [apply IH|intros rs]. reflexivity.
  Qed.
  Lemma fr_it_out2 nc v n : forall next current, rle mv_cp (it_out2 nc v n next current) (it_out2 nc (mv v) n (next + len pre) (current + len pre)).
  Proof.
    induction n as [|n IH]; intros next current; cbn [it_out2]; [reflexivity|]. cbv zeta.
    replace (match n with O => next + len pre | S _ => adv (adv (current + len pre) nc) 3 end) with (match n with O => next | S _ => adv (adv current nc) 3 end + len pre)
      by (destruct n; unfold adv; lia).
    eapply rle_bind; [fr|intros d]. eapply rle_bind; [apply IH|intros r]. reflexivity.
  Qed.
  Lemma fr_it_in2 bm o n : forall i current, rle (map (map mv_cos)) (it_in2 bm o n i current) (it_in2 bm (mv_it o) n i (current + len pre)).
  Proof.
    induction n as [|n IH]; intros i current; cbn [it_in2]; [reflexivity|]. eapply rle_bind; [fr|intros locator]. eapply rle_bind; [fr|intros nieb].
    eapply (rle_bind shift); [destruct n; fr|intros next]. eapply rle_bind; [apply fr_it_out2|intros r]. eapply rle_bind; [apply IH|intros rs]. reflexivity.
  Qed.

  Lemma fr_it_generateBlocks : forall bm (x1 : itxe), rle mv_it (ThermalBlocks.it_generateBlocks bm x1) (ThermalBlocks.it_generateBlocks bm (mv_it x1)).
  Proof.
    intros; subst; unfold ThermalBlocks.it_generateBlocks. eapply rle_bind; [fr|intros n]. eapply rle_bind; [|fr]. mvs. destruct (_ <? 2); [rewrite vbeg_mv; apply fr_it_in01|].
    eapply rle_bind; [fr|intros l]. eapply rle_bind; [fr|intros c]. apply fr_it_in2.
  Qed.
  Hint Resolve fr_it_generateBlocks : frame.

  Lemma fr_it_make : forall bm (x1 : Z) (x1' : Z) (x2 : Z) (x2' : Z) (x3 : Z) (x3' : Z) (x4 : Z) (x4' : Z) (x5 : Z) (x5' : Z) (x6 : view) (x6' : view), x1' = x1 -> x2' = x2 -> x3' = x3 -> x4' = x4 -> x5' = x5 -> x6' = mv x6 -> rle mv_it (ThermalBlocks.it_make bm x1 x2 x3 x4 x5 x6) (ThermalBlocks.it_make bm x1' x2' x3' x4' x5' x6').
  Proof. intros; subst; unfold ThermalBlocks.it_make. nrm. eapply rle_bind; [fr|intros ?]. exact (fr_it_generateBlocks bm (Itxe _ _ _ _ _ _ [])). Qed.
  Hint Resolve fr_it_make : frame.

End Moved.
