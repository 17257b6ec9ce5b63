(** Energy distributions without locators: equiprobable bins (law 1), discrete
    photon (2), level scattering (3), two body transfer (33), N-body phase space
    (66). *)
From Coq Require Import ZArith Bool List Lia Permutation Sorted.
From Coq Require Import ZifyBool ZifyNat.
From Verif Require Export EnergyAngle.
Import ListNotations.
Open Scope Z_scope.

(** * TwoParameterDistribution and its derived classes *)

(** src/ACEtk/base/TwoParameterDistribution.hpp:18-22: the energy limits are kept
    outside the XSS data. *)
Record two := Two { two_v_ : view; two_emin : double; two_emax : double }.
(** ctor.hpp:18-21 *)
Definition two_of (emin emax c1 c2 : double) : two := Two (own [c1; c2]) emin emax.
(** ctor.hpp:32-38, verifySize.hpp:1-12 *)
Definition two_make (v : view) (emin emax : double) : outcome two :=
  _ <- verify_at_least v 2 ;; Ok (Two v emin emax).
(** TwoParameterDistribution.hpp:61-66 *)
Definition two_C1 bm o := xss bm (two_v_ o) 1.
Definition two_C2 bm o := xss bm (two_v_ o) 2.
(** src/ACEtk/continuous/DiscretePhotonDistribution.hpp:68: double to unsigned int *)
Definition trunc_to_u32 (x : double) : outcome Z :=
  match sf_trunc x with
  | Some z => if (0 <=? z) && (z <? 2 ^ 32) then Ok z else UB
  | None => UB
  end.
Definition dp_LP bm o : outcome Z := x <- two_C1 bm o ;; trunc_to_u32 x.

Lemma two_has bm v c1 c2 lo hi : has v [c1; c2] ->
  two_make v lo hi = Ok (Two v lo hi)
  /\ two_C1 bm (Two v lo hi) = Ok c1 /\ two_C2 bm (Two v lo hi) = Ok c2.
Proof.
  intros H. split; [|split].
  - unfold two_make. rewrite (verify_at_least_has _ _ _ H) by (unfold len; cbn; lia). reflexivity.
  - apply (xss_at _ _ [] c1 [c2]); [exact H|reflexivity].
  - apply (xss_at _ _ [c1] c2 []); [exact H|reflexivity].
Qed.

Lemma trunc_to_u32_dbl n : 0 <= n < 2 ^ 32 -> trunc_to_u32 (dbl n) = Ok n.
Proof.
  intros H. unfold trunc_to_u32. rewrite sf_trunc_dbl by lia.
  destruct ((0 <=? n) && (n <? 2 ^ 32)) eqn:E; [reflexivity|lia].
Qed.

(** * NBodyPhaseSpaceDistribution *)

(** src/ACEtk/continuous/NBodyPhaseSpaceDistribution/src/generateXSS.hpp:1-17 *)
Definition nb_generateXSS (npsx : Z) (ap : double) (interpolation : Z) (x pdf cdf : list double)
  : outcome (list double) :=
  c <- cd_generateXSS [x; pdf; cdf] ;; Ok ([dbl npsx; ap; dbl interpolation] ++ c).
(** ctor.hpp:40-46, verifySize.hpp:1-12; same fields as [two] *)
Definition nb_make := two_make.
(** NBodyPhaseSpaceDistribution.hpp:67-116: NPSX is an unsigned int, interpolation
    an int, numberValues a std::size_t *)
Definition nb_NPSX bm o : outcome Z := n <- ixss bm (two_v_ o) 1 ;; Ok (u32 n).
Definition nb_AP bm o := xss bm (two_v_ o) 2.
Definition nb_interpolation bm o := ixss bm (two_v_ o) 3.
Definition nb_numberValues bm o := ixss_size bm (two_v_ o) 4.
Definition nb_values bm o := n <- nb_numberValues bm o ;; xssr bm (two_v_ o) 5 n.
Definition nb_pdf bm o := n <- nb_numberValues bm o ;; xssr bm (two_v_ o) (5 + n) n.
Definition nb_cdf bm o := n <- nb_numberValues bm o ;; xssr bm (two_v_ o) (5 + 2 * n) n.

Definition nb_layout (npsx : Z) (ap : double) (interpolation : Z) (x pdf cdf : list double) :=
  dbl npsx :: ap :: dbl interpolation :: dbl (len x) :: x ++ pdf ++ cdf.

Lemma nb_generateXSS_inv npsx ap i x p c l : nb_generateXSS npsx ap i x p c = Ok l ->
  len p = len x /\ len c = len x /\ l = nb_layout npsx ap i x p c.
Proof.
  unfold nb_generateXSS. destruct (cd_generateXSS [x; p; c]) as [t| |] eqn:E; try discriminate.
  cbn [bind]. intros H. injection H as <-. apply cd_generateXSS_inv in E as (ne & _ & A & ->).
  inversion A as [|? ? A1 A']; subst. inversion A' as [|? ? A2 A'']; subst. inversion A'' as [|? ? A3 _]; subst.
  split; [congruence|]. split; [congruence|]. unfold nb_layout, cd_layout. cbn [concat]. rewrite !app_nil_r. reflexivity.
Qed.

Definition nb_shows bm o npsx ap i x p c : Prop :=
  nb_NPSX bm o = Ok npsx /\ nb_AP bm o = Ok ap /\ nb_interpolation bm o = Ok i
  /\ nb_numberValues bm o = Ok (len x)
  /\ nb_values bm o = Ok x /\ nb_pdf bm o = Ok p /\ nb_cdf bm o = Ok c.

Lemma nb_has bm v npsx ap i x p c lo hi : 0 <= npsx < 2 ^ 31 -> 0 <= i < 2 ^ 31 ->
  len p = len x -> len c = len x -> has v (nb_layout npsx ap i x p c) ->
  nb_make v lo hi = Ok (Two v lo hi) /\ nb_shows bm (Two v lo hi) npsx ap i x p c.
Proof.
  intros Hn Hi Hp Hc H. pose proof (has_bounds _ _ H) as B. unfold nb_layout in H, B.
  repeat rewrite ?len_cons, ?len_app in B. pose proof (len_nonneg x).
  split. { unfold nb_make, two_make. rewrite (verify_at_least_has _ _ _ H) by (repeat rewrite ?len_cons, ?len_app; lia). reflexivity. }
  assert (N : nb_numberValues bm (Two v lo hi) = Ok (len x)).
  { apply (ixss_size_at bm v [dbl npsx; ap; dbl i] (len x) (x ++ p ++ c)); [exact H|reflexivity|lia]. }
  unfold nb_shows, nb_values, nb_pdf, nb_cdf. rewrite N. cbn [bind].
  split. { unfold nb_NPSX. cbn [two_v_]. rewrite (ixss_at bm v [] npsx _ 1 H) by (try reflexivity; lia). cbn [bind].
           rewrite u32_small by lia. reflexivity. }
  split. { apply (xss_at bm v [dbl npsx] ap _ 2 H). reflexivity. }
  split. { apply (ixss_at bm v [dbl npsx; ap] i _ 3 H); [reflexivity|lia]. }
  split; [reflexivity|].
  set (h := [dbl npsx; ap; dbl i; dbl (len x)]). assert (Lh : len h = 4) by reflexivity.
  split; [|split].
  - apply (xssr_has bm v h x (p ++ c)); [exact H|rewrite Lh; reflexivity|reflexivity].
  - apply (xssr_has bm v (h ++ x) p c); [|rewrite len_app, Lh; lia|lia].
    apply (has_eq _ _ _ H). unfold h. las.
  - apply (xssr_has bm v (h ++ x ++ p) c []); [|rewrite !len_app, Lh; lia|lia].
    apply (has_eq _ _ _ H). unfold h. las.
Qed.

(** * EquiprobableOutgoingEnergyBinData *)

(** A bin distribution: incident energy and bin boundaries; in an object the
    boundaries are a view (src/ACEtk/continuous/EquiprobableOutgoingEnergyBins.hpp:22-25,
    ctor.hpp:15-29). *)
Notation eqb_in := (double * list double)%type.
Notation eqb := (double * view)%type.
(** numberBins() is an int, energies(): EquiprobableOutgoingEnergyBins.hpp:42-50 *)
Definition eqb_numberBins (o : eqb) : Z := s32 (vlen (snd o) - 1).
Definition eqb_energies bm (o : eqb) : outcome (list double) := xssr bm (snd o) 1 (eqb_numberBins o + 1).

Record equi := Equi { eq_v : view; eq_interp : columnData; eq_energies_ : columnData; eq_bins : list eqb }.

(** The loop of generateXSS, src/ACEtk/continuous/EquiprobableOutgoingEnergyBinData/src/generateXSS.hpp:26-32 *)
Fixpoint eq_append (index : nat) (ds : list eqb_in) (xss : list double) : outcome (list double) :=
  match ds with
  | [] => Ok xss
  | (e, bins) :: r => xss <- upd index e xss ;; eq_append (S index) r (xss ++ bins)
  end.
(** generateXSS.hpp:1-35; [srt] is std::sort with the comparison on incident
    energies.  [distributions.front()] of an empty vector is undefined. *)
Definition eq_generateXSS (srt : list eqb_in -> list eqb_in) (nbt int : list Z) (ds : list eqb_in)
  : outcome (list double) :=
  let nr := length nbt in
  let ne := length ds in
  let ds := srt ds in
  i <- id_generateXSS nbt int ;;
  let xss := i ++ repeat (dbl 0) (2 + ne) in
  xss <- upd (1 + 2 * nr) (dbl (Z.of_nat ne)) xss ;;
  net <- (match ds with [] => UB | (_, b) :: _ => Ok (s32 (len b - 1) + 1) end) ;;
  xss <- upd (2 + 2 * nr + ne) (dbl net) xss ;;
  eq_append (2 + 2 * nr) ds xss.

(** NB.. NET and the index check:
    src/ACEtk/continuous/EquiprobableOutgoingEnergyBinData.hpp:63-150,
    verifyIncidentEnergyIndex.hpp:1-12 *)
Definition eq_verify bm (energies : columnData) (index : Z) : outcome unit :=
  if debug bm then n <- cd_N bm energies ;; verifyIndex (u64 index) 1 n else Ok tt.
Definition eq_energy_ bm (energies : columnData) (index : Z) : outcome double :=
  _ <- eq_verify bm energies index ;; cd_value bm energies 1 index.
Definition eq_NET_ bm (v : view) (interp energies : columnData) : outcome Z :=
  nr <- id_NB bm interp ;; ne <- cd_N bm energies ;; ixss_size bm v (1 + 2 * nr + 1 + ne + 1).

(** generateBlocks.hpp:1-22 *)
Definition eq_generateBlocks bm (v : view) : outcome equi :=
  nr <- ixss_size bm v 1 ;;
  ne <- ixss_size bm v (1 + 2 * nr + 1) ;;
  let incident := adv (vbeg v) (2 * nr) + 1 in
  let bins := adv incident ne + 1 in
  i <- id_make (sub v (vbeg v) incident) ;;
  es <- cd_make (sub v incident bins) 1 ;;
  ds <- mapM (fun index =>
          e <- eq_energy_ bm es index ;;
          net <- eq_NET_ bm v i es ;;
          Ok (e, sub v (adv (bins + 1) (net * (index - 1))) (adv (bins + 1) (net * index))))
        (seqZ 1 (Z.to_nat ne)) ;;
  Ok (Equi v i es ds).
(** ctor.hpp:64-73 *)
Definition eq_of bm srt nbt int ds : outcome equi :=
  l <- eq_generateXSS srt nbt int ds ;; eq_generateBlocks bm (own l).
(** ctor.hpp:91-99, verifySize.hpp:1-15: unsigned int arithmetic *)
Definition eq_make bm (v : view) : outcome equi :=
  nr <- ixss_size bm v 1 ;;
  ne <- ixss_size bm v (1 + 2 * nr + 1) ;;
  nb <- ixss_size bm v (1 + 2 * nr + 1 + ne + 1) ;;
  _ <- verify_at_least v (u32 (1 + 2 * nr + 1 + ne + 1 + ne * nb)) ;;
  eq_generateBlocks bm v.

Definition eq_NB bm o := id_NB bm (eq_interp o).
Definition eq_NBT bm o := id_NBT bm (eq_interp o).
Definition eq_INT bm o := id_INT bm (eq_interp o).
Definition eq_NE bm o := cd_N bm (eq_energies_ o).
Definition eq_incidentEnergies bm o := cd_column bm (eq_energies_ o) 1.
Definition eq_incidentEnergy bm o i := eq_energy_ bm (eq_energies_ o) i.
Definition eq_NET bm o := eq_NET_ bm (eq_v o) (eq_interp o) (eq_energies_ o).
Definition eq_distribution bm o (index : Z) : outcome eqb :=
  _ <- eq_verify bm (eq_energies_ o) index ;; at_ (eq_bins o) index.
Definition eq_emin bm o := eq_incidentEnergy bm o 1.
Definition eq_emax bm o := n <- eq_NE bm o ;; eq_incidentEnergy bm o n.

(** ** Specification *)

Definition eq_layout (nbt int : list Z) (net : Z) (ds : list eqb_in) : list double :=
  id_layout nbt int ++ dbl (len ds) :: map fst ds ++ dbl net :: concat (map snd ds).

(** The standard's guarantee for std::sort on incident energies. *)
Definition eqb_le (a b : eqb_in) : Prop := SFltb (fst b) (fst a) = false.
Definition eqb_sort_contract (srt : list eqb_in -> list eqb_in) : Prop :=
  forall l, Forall (fun d => fst d <> S754_nan) l -> Permutation l (srt l) /\ StronglySorted eqb_le (srt l).

Definition eq_shows bm (o : equi) nbt int net (ds : list eqb_in) : Prop :=
  eq_NB bm o = Ok (len nbt) /\ eq_NBT bm o = Ok (map dbl nbt) /\ eq_INT bm o = Ok (map dbl int)
  /\ eq_NE bm o = Ok (len ds) /\ eq_incidentEnergies bm o = Ok (map fst ds)
  /\ eq_NET bm o = Ok net
  /\ (forall k d, nth_error ds k = Some d ->
        eq_incidentEnergy bm o (Z.of_nat k + 1) = Ok (fst d)
        /\ exists b, eq_distribution bm o (Z.of_nat k + 1) = Ok b
             /\ fst b = fst d /\ eqb_numberBins b = len (snd d) - 1 /\ eqb_energies bm b = Ok (snd d))
  /\ (debug bm = true -> forall i, u64 i < 1 \/ len ds < u64 i -> eq_distribution bm o i = Throw OutOfRange).

(** ** Lemmas *)

Lemma eq_append_spec pre vs z rest ds data :
  length z = length ds ->
  eq_append (length pre + length vs) ds (pre ++ vs ++ z ++ rest ++ data)
  = Ok (pre ++ (vs ++ map fst ds) ++ rest ++ data ++ concat (map snd ds)).
Proof.
  revert vs z data; induction ds as [|[e b] ds IH]; intros vs z data L; destruct z as [|z0 z]; try discriminate.
  - cbn. rewrite !app_nil_r. reflexivity.
  - cbn [eq_append]. rewrite (upd_at _ (pre ++ vs) z0 (z ++ rest ++ data)) by (try rewrite app_length; las; lia).
    cbn [bind]. specialize (IH (vs ++ [e]) z (data ++ b) ltac:(cbn in L; lia)).
    rewrite app_length in IH. cbn [length] in IH.
    replace (length pre + (length vs + 1))%nat with (S (length pre + length vs)) in IH by lia.
    match goal with |- eq_append _ _ ?x = _ =>
      replace x with (pre ++ (vs ++ [e]) ++ z ++ rest ++ data ++ b) by las end.
    rewrite IH. f_equal. cbn [map fst snd concat]. las.
Qed.

Lemma Ok_inj {A} (x y : A) : Ok x = Ok y -> x = y.
Proof. congruence. Qed.

Lemma eq_generateXSS_inv srt nbt int ds l : length (srt ds) = length ds ->
  eq_generateXSS srt nbt int ds = Ok l ->
  len int = len nbt /\ exists d0 r, srt ds = d0 :: r /\ l = eq_layout nbt int (s32 (len (snd d0) - 1) + 1) (srt ds).
Proof.
  intros Ls. unfold eq_generateXSS.
  destruct (id_generateXSS nbt int) as [i| |] eqn:Ei; try discriminate. cbn [bind].
  apply id_generateXSS_inv in Ei as [E ->]. rewrite <- Ls.
  destruct (srt ds) as [|[e0 b0] r] eqn:Es; [cbn [length]; destruct (upd _ _ _); discriminate|].
  set (s := ((e0, b0) : eqb_in) :: r) in *. set (net := s32 (len b0 - 1) + 1).
  assert (Li : length (id_layout nbt int) = (1 + 2 * length nbt)%nat).
  { pose proof (len_id_layout nbt int E) as L. unfold len in L. lia. }
  assert (R : repeat (dbl 0) (2 + length s) = dbl 0 :: repeat (dbl 0) (length s) ++ [dbl 0]).
  { cbn [Nat.add repeat]. f_equal. change (dbl 0 :: repeat (dbl 0) (length s)) with (repeat (dbl 0) (S (length s))).
    replace (S (length s)) with (length s + 1)%nat by lia. rewrite repeat_app. reflexivity. }
  rewrite R. rewrite (upd_at _ (id_layout nbt int) (dbl 0) (repeat (dbl 0) (length s) ++ [dbl 0])) by (auto; lia).
  cbn [bind].
  rewrite (upd_at _ (id_layout nbt int ++ dbl (Z.of_nat (length s)) :: repeat (dbl 0) (length s)) (dbl 0) []).
  2: { las. } 2: { rewrite app_length. cbn [length]. rewrite repeat_length. lia. }
  cbn [bind].
  pose proof (eq_append_spec (id_layout nbt int ++ [dbl (Z.of_nat (length s))]) [] (repeat (dbl 0) (length s)) [dbl net] s []
    (repeat_length _ _)) as H.
  rewrite app_length in H. cbn [length] in H. rewrite Li in H.
  replace (1 + 2 * length nbt + 1 + 0)%nat with (2 + 2 * length nbt)%nat in H by lia.
  match type of H with eq_append _ _ ?x = _ =>
    match goal with |- eq_append _ _ ?y = _ -> _ => replace y with x by las end end.
  rewrite H. intros Q. apply Ok_inj in Q. rewrite <- Q. split; [exact E|].
  exists (e0, b0), r. split; [reflexivity|]. unfold eq_layout. cbn [snd]. fold net. rewrite <- !app_assoc. reflexivity.
Qed.

Section EqHas.
  Variables (bm : build) (v : view) (nbt int : list Z) (net : Z) (ds : list eqb_in).
  Hypothesis Hint : len int = len nbt.
  Hypothesis Hbins : Forall (fun d => len (snd d) = net) ds.
  Hypothesis Hne : ds <> [].
  Hypothesis Hnet : 1 <= net.
  Hypothesis Hv : has v (eq_layout nbt int net ds).

  Lemma eq_len : len (eq_layout nbt int net ds) = 3 + 2 * len nbt + len ds + len ds * net.
  Proof.
    unfold eq_layout. repeat rewrite ?len_app, ?len_cons. rewrite (len_id_layout nbt int Hint), len_map.
    rewrite (len_concat net) by (unfold all_len; apply Forall_map; exact Hbins). rewrite !len_map. lia.
  Qed.

  Let i := ColumnData (sub v (vbeg v) (vbeg v + 2 * len nbt + 1)) 2.
  Let es := ColumnData (sub v (vbeg v + 2 * len nbt + 1) (vbeg v + 2 * len nbt + 2 + len ds)) 1.

  Lemma eq_blocks (P : view -> list double -> Prop) : (forall w l, content w l -> P w l) ->
    exists o, eq_generateBlocks bm v = Ok o /\ eq_make bm v = Ok o /\ eq_v o = v
    /\ eq_shows bm o nbt int net ds
    /\ Forall2 (fun d b => fst b = fst d /\ P (snd b) (snd d)) ds (eq_bins o).
  Proof.
    intros HP. pose proof (has_bounds _ _ Hv) as B. rewrite eq_len in B.
    pose proof (len_nonneg nbt) as Bn. pose proof (len_nonneg ds) as Bd.
    assert (Bp : 0 < len ds) by (destruct ds; [congruence|rewrite len_cons; nonneg; lia]).
    assert (Bm : net <= len ds * net) by nia.
    assert (H1 : has v ([] ++ dbl (len nbt) :: (map dbl nbt ++ map dbl int) ++ dbl (len ds) :: map fst ds ++ dbl net :: concat (map snd ds))).
    { apply (has_eq _ _ _ Hv). unfold eq_layout, id_layout. las. }
    assert (H2 : has v (id_layout nbt int ++ dbl (len ds) :: map fst ds ++ dbl net :: concat (map snd ds))) by exact Hv.
    assert (H3 : has v ((id_layout nbt int ++ dbl (len ds) :: map fst ds) ++ dbl net :: concat (map snd ds))).
    { apply (has_eq _ _ _ Hv). unfold eq_layout. las. }
    pose proof (len_id_layout nbt int Hint) as Li.
    assert (X1 : ixss_size bm v 1 = Ok (len nbt)) by (apply (ixss_size_at _ _ _ _ _ _ H1); [reflexivity|lia]).
    assert (X2 : ixss_size bm v (1 + 2 * len nbt + 1) = Ok (len ds)) by (apply (ixss_size_at _ _ _ _ _ _ H2); [lia|lia]).
    assert (L3 : len (id_layout nbt int ++ dbl (len ds) :: map fst ds) = 2 + 2 * len nbt + len ds).
    { rewrite len_app, len_cons, len_map. lia. }
    assert (X3 : ixss_size bm v (1 + 2 * len nbt + 1 + len ds + 1) = Ok net) by (apply (ixss_size_at _ _ _ _ _ _ H3); [lia|lia]).
    assert (Ci : content (sub v (vbeg v) (vbeg v + 2 * len nbt + 1)) (id_layout nbt int)).
    { eapply (sub_content v [] (id_layout nbt int)); [exact H2|rewrite len_nil; lia|rewrite len_nil; lia]. }
    destruct (id_has bm _ nbt int Hint (content_has _ _ Ci)) as (Mi & Si).
    assert (Ce : content (sub v (vbeg v + 2 * len nbt + 1) (vbeg v + 2 * len nbt + 2 + len ds)) (cd_layout (len ds) [map fst ds])).
    { eapply (sub_content v (id_layout nbt int) _ (dbl net :: concat (map snd ds))).
      - apply (has_eq _ _ _ H2). unfold cd_layout. las.
      - lia.
      - unfold cd_layout. cbn [concat]. rewrite app_nil_r, len_cons, len_map. lia. }
    assert (Ae : all_len (len ds) [map fst ds]) by (repeat constructor; apply len_map).
    pose proof (cd_make_has _ _ _ Ae (content_has _ _ Ce) ltac:(lia) 1 eq_refl) as Me.
    pose proof (cd_N_has bm _ _ _ (content_has _ _ Ce) ltac:(lia) 1) as Ne.
    fold i in Mi, Si. fold es in Me, Ne.
    assert (Net : eq_NET_ bm v i es = Ok net).
    { unfold eq_NET_. destruct Si as (S1 & _). rewrite S1, Ne. cbn [bind]. exact X3. }
    assert (Vf : forall k, (k < length ds)%nat -> eq_verify bm es (Z.of_nat k + 1) = Ok tt).
    { intros k Hk. unfold eq_verify. destruct (debug bm) eqn:E; [|reflexivity]. rewrite Ne. cbn [bind].
      rewrite u64_small by (unfold len in *; lia). exact (check_verifyIndex Debug (Z.of_nat k + 1) 1 (len ds) ltac:(unfold len; lia)). }
    assert (En : forall k d, nth_error ds k = Some d -> eq_energy_ bm es (Z.of_nat k + 1) = Ok (fst d)).
    { intros k d Hk. unfold eq_energy_. rewrite Vf by (apply nth_error_Some; congruence). cbn [bind].
      apply (cd_value_has bm _ _ _ Ae (content_has _ _ Ce) ltac:(lia) 1 0 (map fst ds) k); try reflexivity.
      rewrite nth_error_map, Hk. reflexivity. }
    set (bins := vbeg v + 2 * len nbt + 1 + len ds + 1).
    set (R := fun k (b : eqb) => exists d, nth_error ds k = Some d /\ fst b = fst d /\ content (snd b) (snd d)).
    assert (Loop : exists bs, mapM (fun index =>
          e <- eq_energy_ bm es index ;;
          net <- eq_NET_ bm v i es ;;
          Ok (e, sub v (adv (bins + 1) (net * (index - 1))) (adv (bins + 1) (net * index)))) (seqZ 1 (length ds)) = Ok bs
        /\ length bs = length ds /\ forall k b, nth_error bs k = Some b -> R k b).
    { apply (mapM_seq _ R (length ds) 1 0). intros k Hk. cbn [Nat.add].
      destruct (nth_error ds k) as [d|] eqn:Ed; [|apply nth_error_None in Ed; lia].
      replace (1 + Z.of_nat k) with (Z.of_nat k + 1) by lia. rewrite (En k d Ed). cbn [bind]. rewrite Net. cbn [bind].
      eexists. split; [reflexivity|]. exists d. split; [exact Ed|]. split; [reflexivity|]. cbn [snd].
      assert (Hm : nth_error (map snd ds) k = Some (snd d)) by (rewrite nth_error_map, Ed; reflexivity).
      pose proof (concat_split _ _ _ Hm) as Ec.
      assert (Al : all_len net (map snd ds)) by (apply Forall_map; exact Hbins).
      assert (Lp : len (concat (firstn k (map snd ds))) = Z.of_nat k * net).
      { rewrite (len_concat net) by (apply all_len_firstn; exact Al).
        rewrite (len_firstn_nth _ _ _ Hm). reflexivity. }
      assert (Ld : len (snd d) = net) by (unfold all_len in Al; rewrite Forall_forall in Al; apply Al; eapply nth_error_In; exact Hm).
      assert (Hk' : Z.of_nat k + 1 <= len ds) by (unfold len; lia).
      assert (Hm1 : net * (Z.of_nat k + 1) <= len ds * net) by nia.
      assert (Hm2 : 0 <= net * (Z.of_nat k + 1 - 1)) by nia.
      assert (Hm3 : net * (Z.of_nat k + 1 - 1) = Z.of_nat k * net) by lia.
      assert (Hm4 : net * (Z.of_nat k + 1) = Z.of_nat k * net + net) by lia.
      rewrite !adv_small by lia.
      eapply (sub_content v ((id_layout nbt int ++ dbl (len ds) :: map fst ds) ++ dbl net :: concat (firstn k (map snd ds))) (snd d) (concat (skipn (S k) (map snd ds)))).
      - rewrite Ec in H3. apply (has_eq _ _ _ H3). las.
      - rewrite len_app, L3, len_cons, Lp. unfold bins. lia.
      - rewrite len_app, L3, len_cons, Lp. unfold bins. lia. }
    destruct Loop as (bs & Hbs & Lbs & Rbs).
    set (o := Equi v i es bs).
    assert (G : eq_generateBlocks bm v = Ok o).
    { unfold eq_generateBlocks. rewrite X1. cbn [bind]. rewrite X2. cbn [bind]. cbn zeta.
      rewrite !adv_small by lia. rewrite Mi. cbn [bind].
      replace (vbeg v + 2 * len nbt + 1 + len ds + 1) with (vbeg v + 2 * len nbt + 2 + len ds) by lia.
      rewrite Me. cbn [bind]. replace (Z.to_nat (len ds)) with (length ds) by (unfold len; lia).
      unfold bins in Hbs. replace (vbeg v + 2 * len nbt + 1 + len ds + 1) with (vbeg v + 2 * len nbt + 2 + len ds) in Hbs by lia.
      rewrite Hbs. reflexivity. }
    exists o. split; [exact G|]. split.
    { unfold eq_make. rewrite X1. cbn [bind]. rewrite X2. cbn [bind]. rewrite X3. cbn [bind].
      rewrite u32_small by lia. rewrite (verify_at_least_has _ _ _ Hv) by (rewrite eq_len; lia). exact G. }
    split; [reflexivity|]. split.
    - destruct Si as (S1 & S2 & S3).
      split; [exact S1|]. split; [exact S2|]. split; [exact S3|]. split; [exact Ne|].
      split; [exact (cd_column_has bm _ _ _ Ae (content_has _ _ Ce) ltac:(lia) 1 0 _ 1 eq_refl eq_refl)|].
      split; [exact Net|]. split.
      + intros k d Hk. split; [exact (En k d Hk)|].
        assert (Hkl : (k < length ds)%nat) by (apply nth_error_Some; congruence).
        destruct (nth_error bs k) as [b|] eqn:Eb; [|apply nth_error_None in Eb; lia].
        exists b. split.
        { unfold eq_distribution. cbn [eq_energies_ eq_bins o]. rewrite (Vf k Hkl). cbn [bind].
          apply (at_has _ _ _ _ Eb); [reflexivity|]. unfold len in *. lia. }
        destruct (Rbs k b Eb) as (d' & Hd' & F1 & F2). rewrite Hk in Hd'. injection Hd' as <-.
        assert (Ld : len (snd d) = net) by (rewrite Forall_forall in Hbins; apply Hbins; eapply nth_error_In; exact Hk).
        split; [exact F1|].
        assert (Nb : eqb_numberBins b = len (snd d) - 1).
        { unfold eqb_numberBins. rewrite (vlen_content _ _ F2). apply s32_small. lia. }
        split; [exact Nb|]. unfold eqb_energies. rewrite Nb.
        apply (xssr_has bm _ [] (snd d) []); [rewrite app_nil_r; exact (content_has _ _ F2)|reflexivity|lia].
      + intros Hd ix Hix. unfold eq_distribution, eq_verify. cbn [eq_energies_ o]. rewrite Hd, Ne. cbn [bind].
        unfold verifyIndex, throw_if. destruct ((u64 ix <? 1) || (len ds <? u64 ix)) eqn:E; [reflexivity|lia].
    - clear - Rbs Lbs HP. cbn [eq_bins o]. revert Lbs Rbs. unfold R. generalize bs. clear - HP.
      induction ds as [|d l IH]; intros [|b bs] L Rb; try discriminate; constructor.
      + destruct (Rb 0%nat b eq_refl) as (d' & E & F1 & F2). injection E as <-. auto.
      + apply IH; [cbn in L; lia|]. intros k b' Hk. exact (Rb (S k) b' Hk).
  Qed.
End EqHas.

(** ** Round trip *)

Definition eq_valid (ds : list eqb_in) : Prop :=
  ds <> [] /\ exists net, 1 <= net < 2 ^ 31 /\ Forall (fun d => len (snd d) = net) ds.

Lemma eq_round_trip srt nbt int ds l :
  eqb_sort_contract srt -> Forall (fun d => fst d <> S754_nan) ds -> eq_valid ds ->
  eq_generateXSS srt nbt int ds = Ok l -> len l < 2 ^ 31 ->
  exists net sorted, Permutation ds sorted /\ StronglySorted eqb_le sorted
  /\ Forall (fun d => len (snd d) = net) ds /\ l = eq_layout nbt int net sorted /\ sorted <> [] /\ 1 <= net
  /\ len int = len nbt
  /\ (forall bm v, has v l -> exists o, eq_make bm v = Ok o /\ eq_v o = v /\ eq_shows bm o nbt int net sorted)
  /\ (forall bm, eq_of bm srt nbt int ds = eq_make bm (own l)).
Proof.
  intros Hs Hn (Hne & net & Hnet & Hb) Hg Hl. destruct (Hs ds Hn) as [HP HS].
  assert (Ls : length (srt ds) = length ds) by (symmetry; apply Permutation_length; exact HP).
  destruct (eq_generateXSS_inv srt nbt int ds l Ls Hg) as (Hint & d0 & r & Es & El).
  assert (Hb' : Forall (fun d => len (snd d) = net) (srt ds)) by (apply (Permutation_Forall HP); exact Hb).
  assert (L0 : len (snd d0) = net) by (rewrite Es in Hb'; inversion Hb'; assumption).
  rewrite L0, s32_small in El by lia. replace (net - 1 + 1) with net in El by lia.
  assert (Hne' : srt ds <> []) by (rewrite Es; discriminate).
  exists net, (srt ds). split; [exact HP|]. split; [exact HS|]. split; [exact Hb|]. split; [exact El|].
  split; [exact Hne'|]. split; [lia|]. split; [exact Hint|]. split.
  - intros bm v Hv. rewrite El in Hv.
    destruct (eq_blocks bm v nbt int net (srt ds) Hint Hb' Hne' ltac:(lia) Hv content (fun w l H => H)) as (o & _ & M & V & S & _).
    exists o. auto.
  - intros bm. unfold eq_of. rewrite Hg. cbn [bind].
    assert (Hc : content (own l) l) by (apply own_content; unfold max_words; lia).
    pose proof (content_has _ _ Hc) as Hv. rewrite El in Hv at 2.
    destruct (eq_blocks bm (own l) nbt int net (srt ds) Hint Hb' Hne' ltac:(lia) Hv content (fun w l H => H)) as (o & G & M & _).
    congruence.
Qed.
