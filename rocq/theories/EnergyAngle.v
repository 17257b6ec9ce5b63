(** ACE law 61: angular distributions for each outgoing energy, for each
    incident energy. *)
From Coq Require Import ZArith Bool List Lia.
From Coq Require Import ZifyBool ZifyNat.
From Verif Require Export EnergyLaws.
Import ListNotations.
Open Scope Z_scope.

(** * TabulatedAngularDistributionWithProbability *)

(** Constructor arguments,
    src/ACEtk/continuous/TabulatedAngularDistributionWithProbability/src/ctor.hpp:20-29;
    energy, probability and cumulative probability are kept outside the XSS data. *)
Record tw_in := TW { tw_energy : double; tw_prob : double; tw_cumul : double;
  tw_interp : Z; tw_x : list double; tw_pdf : list double; tw_cdf : list double }.
Definition tw_words (t : tw_in) : outcome (list double) :=
  tp_generateXSS (tw_interp t) (tw_x t) (tw_pdf t) (tw_cdf t) [].
Definition tw_valid (t : tw_in) : Prop := - 2 ^ 31 <= tw_interp t < 2 ^ 31.

Record tw_obj := TWObj { two_energy : double; two_prob : double; two_cumul : double; two_v : view }.
(** ctor.hpp:40-46 *)
Definition tw_make bm (e p c : double) (v : view) : outcome tw_obj :=
  w <- tp_make bm v ;; Ok (TWObj e p c w).

Definition tw_shows bm (o : tw_obj) (t : tw_in) : Prop :=
  two_energy o = tw_energy t /\ two_prob o = tw_prob t /\ two_cumul o = tw_cumul t
  /\ tp_interpolation bm (two_v o) = Ok (tw_interp t) /\ tp_numberValues bm (two_v o) = Ok (len (tw_x t))
  /\ tp_values bm (two_v o) = Ok (tw_x t) /\ tp_pdf bm (two_v o) = Ok (tw_pdf t)
  /\ tp_cdf bm (two_v o) = Ok (tw_cdf t).

Lemma tw_has bm t l w : tw_words t = Ok l -> tw_valid t -> has w l ->
  tw_make bm (tw_energy t) (tw_prob t) (tw_cumul t) w = Ok (TWObj (tw_energy t) (tw_prob t) (tw_cumul t) w)
  /\ tw_shows bm (TWObj (tw_energy t) (tw_prob t) (tw_cumul t) w) t.
Proof.
  intros Hl Hi H. unfold tw_words in Hl. apply tp_generateXSS_inv in Hl as [A ->].
  destruct (tp_has bm w _ _ _ _ _ A Hi H) as (M & S1 & S2 & S3 & S4 & S5 & _).
  split; [unfold tw_make; rewrite M; reflexivity|]. repeat split; assumption.
Qed.

Lemma tw_words_pos t l : tw_words t = Ok l -> 2 <= len l.
Proof.
  intros H. apply tp_generateXSS_inv in H as [_ ->]. unfold tp_layout, cd_layout.
  rewrite !len_cons. nonneg. lia.
Qed.

(** * TabulatedEnergyAngleDistribution *)

(** An element to write: energy, probability, cumulative probability, words. *)
Definition ea_elem : Type := (double * double * double * list double)%type.

(** The loop of src/ACEtk/continuous/TabulatedEnergyAngleDistribution/src/generateXSS.hpp:11-28 *)
Fixpoint ea_append (ne : nat) (offset : Z) (index : nat) (es : list ea_elem) (xss : list double)
  : outcome (list double) :=
  match es with
  | [] => Ok xss
  | (e, p, c, body) :: r =>
      xss <- upd index e xss ;;
      xss <- upd (index + ne) p xss ;;
      xss <- upd (index + 2 * ne) c xss ;;
      xss <- upd (index + 3 * ne) (dbl (u64 (len xss + offset))) xss ;;
      ea_append ne offset (S index) r (xss ++ body)
  end.
(** .../generateXSS.hpp:1-34 *)
Definition ea_generate (interpolation locb : Z) (es : list ea_elem) : outcome (list double) :=
  let ne := length es in
  xss <- upd 0 (dbl (Z.of_nat ne)) (repeat (dbl 0) (1 + 4 * ne)) ;;
  xss <- ea_append ne (1 + locb) 1 es xss ;;
  Ok (dbl (u32 interpolation) :: xss).

(** Body of the loop of .../generateBlocks.hpp:10-24 *)
Definition ea_distribution bm (v : view) (locb : Z) (values : columnData) (n index : Z) : outcome tw_obj :=
  e <- cd_value bm values 1 index ;;
  p <- cd_value bm values 2 index ;;
  c <- cd_value bm values 3 index ;;
  _ <- dd_LOCC bm values index ;;
  locator <- dd_relative bm u64 locb values index ;;
  let left := adv (vbeg v) (locator - 1) in
  right <- (if index =? n then Ok (vend v)
            else l <- dd_relative bm u64 locb values (index + 1) ;; Ok (adv (vbeg v) (l - 1))) ;;
  tw_make bm e p c (sub v left right).

(** .../generateBlocks.hpp:1-25 *)
Definition ea_generateBlocks bm (locb : Z) (v : view) : outcome (distributionDataI tw_obj) :=
  ne <- ixss_size bm v 2 ;;
  let data := vbeg v + 1 in
  let end_ := adv data (4 * ne) + 1 in
  values <- cd_make (sub v data end_) 4 ;;
  n <- cd_N bm values ;;
  ds <- mapM (ea_distribution bm v locb values n) (seqZ 1 (Z.to_nat n)) ;;
  Ok (DistDataI v locb values ds).

(** Constructors: src/ACEtk/base/DistributionDataWithInterpolationType/src/ctor.hpp:33-61
    with verifySize.hpp:1-13 *)
Definition ea_build bm (interpolation : Z) (es : list ea_elem) (locb : Z) : outcome (distributionDataI tw_obj) :=
  l <- ea_generate interpolation locb es ;; ea_generateBlocks bm locb (own l).
Definition ea_read bm (locb : Z) (v : view) : outcome (distributionDataI tw_obj) :=
  ne <- (x <- xss bm v 2 ;; round_to_size x) ;;
  _ <- verify_at_least v (u32 (2 + 2 * ne)) ;;
  ea_generateBlocks bm locb v.

(** User level: src/ACEtk/continuous/TabulatedEnergyAngleDistribution/src/ctor.hpp:17-39 *)
Record ea_in := EA { ea_value : double; ea_interp : Z; ea_locb : Z; ea_dists : list tw_in }.
Definition tw_elem (t : tw_in) : outcome ea_elem :=
  w <- tw_words t ;; Ok (tw_energy t, tw_prob t, tw_cumul t, w).
Definition ea_generateXSS (d : ea_in) (locb : Z) : outcome (list double) :=
  es <- mapM tw_elem (ea_dists d) ;; ea_generate (ea_interp d) locb es.
Definition ea_of bm (d : ea_in) (locb : Z) : outcome (distributionDataI tw_obj) :=
  es <- mapM tw_elem (ea_dists d) ;; ea_build bm (ea_interp d) es locb.
Definition ea_obj : Type := (double * distributionDataI tw_obj)%type.
Definition ea_make bm (value : double) (locb : Z) (v : view) : outcome ea_obj :=
  o <- ea_read bm locb v ;; Ok (value, o).

Definition ea_shows bm (locb : Z) (l : list double) (o : distributionDataI tw_obj) (d : ea_in) : Prop :=
  di_interpolation bm o = Ok (ea_interp d) /\ di_N bm o = Ok (len (ea_dists d))
  /\ di_column bm o 1 = Ok (map tw_energy (ea_dists d))
  /\ di_column bm o 2 = Ok (map tw_prob (ea_dists d))
  /\ di_column bm o 3 = Ok (map tw_cumul (ea_dists d))
  /\ (forall k t, nth_error (ea_dists d) k = Some t ->
        di_value bm o 1 (Z.of_nat k + 1) = Ok (tw_energy t)
        /\ di_value bm o 2 (Z.of_nat k + 1) = Ok (tw_prob t)
        /\ di_value bm o 3 (Z.of_nat k + 1) = Ok (tw_cumul t)
        /\ (exists u, di_datum bm o (Z.of_nat k + 1) = Ok u /\ tw_shows bm u t)
        /\ exists before w after,
             l = before ++ w ++ after /\ tw_words t = Ok w
             /\ di_rel bm o (Z.of_nat k + 1) = Ok (len before + 1))
  /\ (debug bm = true -> forall i, u64 i < 1 \/ len (ea_dists d) < u64 i -> di_datum bm o i = Throw OutOfRange).

(** ** Lemmas *)

Definition tw_es (ts : list tw_in) (ws : list (list double)) : list ea_elem :=
  map (fun tw => (tw_energy (fst tw), tw_prob (fst tw), tw_cumul (fst tw), snd tw)) (combine ts ws).
Definition tws (ts : list tw_in) (ws : list (list double)) : Prop :=
  Forall2 (fun t w => tw_words t = Ok w) ts ws.

Lemma tw_words_list ts es : mapM tw_elem ts = Ok es -> exists ws, tws ts ws /\ es = tw_es ts ws.
Proof.
  revert es. induction ts as [|d r IH]; intros es E.
  - exists []. split; [constructor|]. injection E as <-. reflexivity.
  - cbn [mapM] in E. unfold tw_elem at 1 in E. destruct (tw_words d) as [w| |] eqn:Ew; try discriminate.
    cbn [bind] in E. destruct (mapM tw_elem r) as [es'| |] eqn:E'; try discriminate. cbn [bind] in E.
    injection E as <-. destruct (IH es' eq_refl) as (ws & F & M).
    exists (w :: ws). split; [constructor; assumption|]. unfold tw_es. cbn [combine map fst snd].
    rewrite M. reflexivity.
Qed.
Lemma tws_mapM ts ws : tws ts ws -> mapM tw_elem ts = Ok (tw_es ts ws).
Proof.
  induction 1 as [|t w ts ws H F IH]; [reflexivity|]. cbn [mapM]. unfold tw_elem at 1. rewrite H. cbn [bind].
  rewrite IH. reflexivity.
Qed.

Definition ea_cols (ts : list tw_in) : list (list double) :=
  [map tw_energy ts; map tw_prob ts; map tw_cumul ts].

Definition ea_layout (d : ea_in) (ws : list (list double)) (b : Z) : list double :=
  dd_layout [dbl (ea_interp d)] b (ea_cols (ea_dists d)) (map const ws).

Lemma ea_cols_all ts (ws : list (list double)) : length ws = length ts -> all_len (len (map const ws)) (ea_cols ts).
Proof. intros L. repeat constructor; rewrite !len_map; unfold len; congruence. Qed.

Lemma ea_layout_len d ws b : length ws = length (ea_dists d) ->
  len (ea_layout d ws b) = 2 + 4 * len ws + len (concat ws).
Proof.
  intros L. unfold ea_layout. rewrite len_dd_layout by (apply ea_cols_all; exact L).
  rewrite len_bodies_const, len_map. change (len [dbl (ea_interp d)]) with 1.
  change (len (ea_cols (ea_dists d))) with 3. lia.
Qed.

Lemma ea_append_spec ne offset n0 c1 c2 c3 ls data ts ws b :
  tws ts ws -> length c1 = length ls -> length c2 = length ls -> length c3 = length ls ->
  (length ls + length ts = ne)%nat ->
  b = offset + 1 + 4 * Z.of_nat ne + len data -> 0 <= offset ->
  b + len (concat ws) < 2 ^ 53 ->
  let z := repeat (dbl 0) (length ts) in
  ea_append ne offset (S (length ls)) (tw_es ts ws)
    (n0 :: c1 ++ z ++ c2 ++ z ++ c3 ++ z ++ ls ++ z ++ data)
  = Ok (n0 :: (c1 ++ map tw_energy ts) ++ (c2 ++ map tw_prob ts) ++ (c3 ++ map tw_cumul ts)
        ++ ls ++ map dbl (dd_locs b (map const ws)) ++ data ++ concat ws).
Proof.
  intros F. revert c1 c2 c3 ls data b.
  induction F as [|t w ts ws Hw F IH]; intros c1 c2 c3 ls data b L1 L2 L3 Hne Hb Ho Hs.
  - cbn. rewrite !app_nil_r. reflexivity.
  - cbn zeta. unfold tw_es. cbn [combine map fst snd]. fold (tw_es ts ws).
    cbn [ea_append length repeat dd_locs map const concat] in *. rewrite len_app in Hs.
    pose proof (len_nonneg data). pose proof (len_nonneg w). pose proof (len_nonneg (concat ws)).
    set (z := repeat (dbl 0) (length ts)).
    assert (Lz : length z = length ts) by apply repeat_length.
    rewrite (upd_at _ (n0 :: c1) (dbl 0) (z ++ c2 ++ dbl 0 :: z ++ c3 ++ dbl 0 :: z ++ ls ++ dbl 0 :: z ++ data)).
    2: { las. } 2: { cbn [length]. lia. }
    cbn [bind].
    rewrite (upd_at _ (n0 :: c1 ++ tw_energy t :: z ++ c2) (dbl 0) (z ++ c3 ++ dbl 0 :: z ++ ls ++ dbl 0 :: z ++ data)).
    2: { las. } 2: { cbn [length]. rewrite app_length. cbn [length]. rewrite app_length. lia. }
    cbn [bind].
    rewrite (upd_at _ (n0 :: c1 ++ tw_energy t :: z ++ c2 ++ tw_prob t :: z ++ c3) (dbl 0) (z ++ ls ++ dbl 0 :: z ++ data)).
    2: { las. } 2: { cbn [length]. rewrite !app_length. cbn [length]. rewrite !app_length. cbn [length].
                     rewrite !app_length. lia. }
    cbn [bind].
    set (x3 := (n0 :: c1 ++ tw_energy t :: z ++ c2 ++ tw_prob t :: z ++ c3) ++ tw_cumul t :: z ++ ls ++ dbl 0 :: z ++ data).
    assert (L : u64 (len x3 + offset) = b).
    { unfold x3. repeat rewrite ?len_app, ?len_cons. unfold len in *. rewrite u64_small; lia. }
    rewrite L.
    rewrite (upd_at _ (n0 :: c1 ++ tw_energy t :: z ++ c2 ++ tw_prob t :: z ++ c3 ++ tw_cumul t :: z ++ ls) (dbl 0) (z ++ data)).
    2: { unfold x3. las. }
    2: { cbn [length]. rewrite !app_length. cbn [length]. rewrite !app_length. cbn [length].
         rewrite !app_length. cbn [length]. rewrite !app_length. lia. }
    cbn [bind].
    specialize (IH (c1 ++ [tw_energy t]) (c2 ++ [tw_prob t]) (c3 ++ [tw_cumul t]) (ls ++ [dbl b]) (data ++ w) (b + len w)).
    rewrite !app_length in IH. cbn [length] in IH. cbn zeta in IH. fold z in IH.
    replace (length ls + 1)%nat with (S (length ls)) in IH by lia.
    match goal with |- ea_append _ _ _ _ ?x = _ =>
      replace x with (n0 :: (c1 ++ [tw_energy t]) ++ z ++ (c2 ++ [tw_prob t]) ++ z ++ (c3 ++ [tw_cumul t]) ++ z
                      ++ (ls ++ [dbl b]) ++ z ++ data ++ w) by las end.
    rewrite IH; [|lia|lia|lia|lia|rewrite len_app; lia|exact Ho|lia].
    f_equal. unfold const at 2. las.
Qed.

Lemma bodies_const b ws : dd_bodies b (map const ws) = concat ws.
Proof. revert b; induction ws as [|w ws IH]; intros b; cbn; [reflexivity|]. rewrite IH. reflexivity. Qed.

Section EA.
  Variables (d : ea_in) (ws : list (list double)).
  Hypothesis F : tws (ea_dists d) ws.
  Hypothesis Hi : 0 <= ea_interp d < 2 ^ 31.
  Hypothesis Hvalid : Forall tw_valid (ea_dists d).

  Lemma ea_Lws : length ws = length (ea_dists d).
  Proof. symmetry. exact (Forall2_len _ _ _ F). Qed.

  Lemma ea_gen_ok locb : 0 <= locb -> locb + 2 + 4 * len ws + len (concat ws) < 2 ^ 53 ->
    ea_generate (ea_interp d) locb (tw_es (ea_dists d) ws) = Ok (ea_layout d ws locb).
  Proof.
    intros Hb Hs. unfold ea_generate.
    assert (Le : length (tw_es (ea_dists d) ws) = length (ea_dists d)).
    { unfold tw_es. rewrite map_length, combine_length, ea_Lws. lia. }
    rewrite Le. cbn [Nat.add repeat upd bind].
    pose proof (ea_append_spec (length (ea_dists d)) (1 + locb) (dbl (Z.of_nat (length (ea_dists d)))) [] [] [] [] []
       (ea_dists d) ws (locb + 2 + 4 * len ws) F eq_refl eq_refl eq_refl eq_refl) as H.
    cbn [length app] in H. cbn zeta in H. rewrite app_nil_r, <- !repeat_app in H.
    change (@len double []) with 0 in H.
    replace (4 * length (ea_dists d))%nat with (length (ea_dists d) + (length (ea_dists d) + (length (ea_dists d) + length (ea_dists d))))%nat by lia.
    rewrite H; [|unfold len; rewrite ea_Lws; lia|lia|lia]. cbn [bind]. rewrite u32_small by lia.
    unfold ea_layout, dd_layout. rewrite bodies_const. change (len [dbl (ea_interp d)]) with 1.
    change (len (ea_cols (ea_dists d))) with 3. rewrite len_map.
    replace (locb + 1 + 1 + (3 + 1) * len ws) with (locb + 2 + 4 * len ws) by lia.
    f_equal. unfold ea_cols. cbn [concat].
    replace (Z.of_nat (length (ea_dists d))) with (len ws) by (unfold len; rewrite ea_Lws; reflexivity).
    las.
  Qed.

  Lemma ea_len_gen locb l : ea_generate (ea_interp d) locb (tw_es (ea_dists d) ws) = Ok l ->
    len l = 2 + 4 * len ws + len (concat ws).
  Proof.
    unfold ea_generate.
    assert (Le : length (tw_es (ea_dists d) ws) = length (ea_dists d)).
    { unfold tw_es. rewrite map_length, combine_length, ea_Lws. lia. }
    rewrite Le. cbn [Nat.add repeat upd bind]. intros H.
    destruct (ea_append _ _ _ _ _) as [x| |] eqn:E; try discriminate. cbn [bind] in H. injection H as <-.
    assert (G : forall ts ws ne off i x0 x, tws ts ws -> ea_append ne off i (tw_es ts ws) x0 = Ok x ->
       len x = len x0 + len (concat ws)).
    { clear. induction ts as [|t ts IH]; intros ws ne off i x0 x F; inversion F; subst; intros H.
      - cbn in H. injection H as <-. cbn [concat]. rewrite len_nil. lia.
      - unfold tw_es in H. cbn [combine map fst snd ea_append] in H. fold (tw_es ts l') in H.
        repeat match type of H with
        | bind ?e _ = Ok _ => let Q := fresh "Q" in destruct e eqn:Q; try discriminate; cbn [bind] in H; apply upd_len in Q
        end.
        apply IH in H; [|assumption]. cbn [concat]. rewrite len_app in *. lia. }
    apply (G _ _ _ _ _ _ _ F) in E. rewrite len_cons, E, len_cons, len_repeat.
    unfold len. rewrite ea_Lws. lia.
  Qed.

  Lemma ea_at_k k t : nth_error (ea_dists d) k = Some t ->
    exists pre w post, map const ws = pre ++ const w :: post /\ length pre = k /\ tw_words t = Ok w.
  Proof.
    intros Hk. pose proof ea_Lws as Lk.
    destruct (nth_error ws k) as [w|] eqn:Ew.
    2: { apply nth_error_None in Ew. assert (k < length (ea_dists d))%nat by (apply nth_error_Some; congruence). lia. }
    destruct (Forall2_nth _ _ _ _ _ F Ew) as (d' & Hd' & Hw'). rewrite Hk in Hd'. injection Hd' as <-.
    assert (Hf : nth_error (map const ws) k = Some (const w)) by (rewrite nth_error_map, Ew; reflexivity).
    destruct (nth_split_len _ _ _ Hf) as (pre & post & E & Lp). exists pre, w, post. auto.
  Qed.

  Lemma ea_read_has locb bm v (P : view -> list double -> Prop) :
    1 <= locb -> locb + len (ea_layout d ws locb) <= 2 ^ 31 -> has v (ea_layout d ws locb) ->
    (forall w l, content w l -> P w l) -> (forall w l, P w l -> has w l) ->
    (forall l1 l2, ea_layout d ws locb = l1 ++ l2 -> P (sub v (vbeg v + len l1) (vend v)) l2) ->
    exists o, ea_generateBlocks bm locb v = Ok o /\ ea_read bm locb v = Ok o
      /\ di_v o = v /\ ea_shows bm locb (ea_layout d ws locb) o d
      /\ Forall2 (fun t u => (two_energy u, two_prob u, two_cumul u) = (tw_energy t, tw_prob t, tw_cumul t)
                    /\ exists w, tw_words t = Ok w /\ P (two_v u) w) (ea_dists d) (di_dists o).
  Proof.
    intros Hb Hs Hv HP HPh HPl. rewrite ea_layout_len in Hs by exact ea_Lws.
    set (fs := map const ws). set (cols := ea_cols (ea_dists d)).
    assert (Lf : len fs = len ws) by apply len_map.
    assert (Ld : len fs = len (ea_dists d)) by (rewrite Lf; unfold len; rewrite ea_Lws; reflexivity).
    assert (Hall : all_len (len fs) cols) by (apply ea_cols_all; exact ea_Lws).
    assert (Hpos : Forall (fun f => forall b, 0 < len (f b)) fs).
    { apply Forall_forall. intros f Hf. unfold fs in Hf. apply in_map_iff in Hf as (w & <- & Hw).
      apply In_nth_error in Hw as (k & Hk). destruct (Forall2_nth _ _ _ _ _ F Hk) as (t & _ & Ht).
      intros b. pose proof (tw_words_pos _ _ Ht). unfold const. lia. }
    set (b0 := dd_b0 [dbl (ea_interp d)] locb cols fs).
    assert (Eb0 : b0 = locb + 2 + 4 * len ws).
    { unfold b0, dd_b0. change (len [dbl (ea_interp d)]) with 1. change (len cols) with 3. lia. }
    assert (Hsz : b0 + len (dd_bodies b0 fs) <= 2 ^ 31).
    { unfold fs. rewrite len_bodies_const. lia. }
    change (has v (dd_layout [dbl (ea_interp d)] locb cols fs)) in Hv.
    pose proof (dd_bounds v _ _ _ _ Hv Hall) as B. change (dd_nc cols) with 4 in B.
    change (len [dbl (ea_interp d)]) with 1 in B. fold b0 in B.
    set (values := dd_cd v [dbl (ea_interp d)] cols fs).
    assert (N : cd_N bm values = Ok (len fs)) by exact (dd_N_has bm v _ _ _ _ Hv Hall).
    set (R := fun k u => exists t w, nth_error (ea_dists d) k = Some t /\ tw_shows bm u t
           /\ (two_energy u, two_prob u, two_cumul u) = (tw_energy t, tw_prob t, tw_cumul t)
           /\ tw_words t = Ok w /\ P (two_v u) w).
    assert (Hcv : forall i ic c k t x, nth_error cols i = Some c -> ic = Z.of_nat i + 1 -> nth_error c k = Some x ->
              nth_error (ea_dists d) k = Some t ->
              cd_value bm values ic (Z.of_nat k + 1) = Ok x).
    { intros i ic c k t x Hc -> Hx Ht.
      pose proof (dd_value_has bm v _ _ _ _ Hv Hall i c k x _ _ Hc Hx eq_refl eq_refl) as HV.
      unfold dd_value in HV. rewrite (dd_verify_has bm v _ _ _ _ Hv Hall) in HV; [exact HV|].
      apply nth_error_len in Ht. lia. }
    assert (Loop : exists ds, mapM (ea_distribution bm v locb values (len fs)) (seqZ 1 (length fs)) = Ok ds
              /\ length ds = length fs /\ forall k u, nth_error ds k = Some u -> R k u).
    { apply (mapM_seq _ R (length fs) 1 0). intros k Hk. cbn [Nat.add].
      destruct (nth_error (ea_dists d) k) as [t|] eqn:Et.
      2: { apply nth_error_None in Et. unfold len in *. lia. }
      destruct (ea_at_k k t Et) as (pre & w & post & E & Lp & Hw). fold fs in E.
      replace (1 + Z.of_nat k) with (Z.of_nat k + 1) by lia. unfold ea_distribution.
      rewrite (Hcv 0%nat 1 _ k t (tw_energy t) eq_refl eq_refl) by (auto; rewrite nth_error_map, Et; reflexivity). cbn [bind].
      rewrite (Hcv 1%nat 2 _ k t (tw_prob t) eq_refl eq_refl) by (auto; rewrite nth_error_map, Et; reflexivity). cbn [bind].
      rewrite (Hcv 2%nat 3 _ k t (tw_cumul t) eq_refl eq_refl) by (auto; rewrite nth_error_map, Et; reflexivity). cbn [bind].
      assert (Lk : Z.of_nat k + 1 = len pre + 1) by (unfold len; lia). rewrite Lk.
      unfold values at 1. rewrite (dd_LOCC_has bm v _ _ _ _ Hv Hall Hb Hpos Hsz pre _ post _ E eq_refl). cbn [bind].
      unfold values at 1. rewrite (dd_rel_has bm v _ _ _ _ Hv Hall Hb Hpos Hsz u64 conv_size pre _ post _ E eq_refl). cbn [bind].
      destruct (dd_split [dbl (ea_interp d)] locb cols fs Hall pre _ post E) as (Q1 & Q2 & Q3 & Q4).
      fold b0 in Q1, Q2, Q3, Q4. fold b0. change (dd_nc cols) with 4 in Q2. change (dd_nc cols) with 4.
      change (len [dbl (ea_interp d)]) with 1. change (len [dbl (ea_interp d)]) with 1 in Q2.
      pose proof (len_nonneg (dd_bodies b0 pre)).
      match type of Q4 with context [len (dd_bodies ?b post)] => pose proof (len_nonneg (dd_bodies b post)) end.
      match type of Q3 with context [len (const w ?b)] => pose proof (len_nonneg (const w b)) end.
      rewrite adv_small by lia.
      replace (vbeg v + (1 + 2 + 4 * len fs + len (dd_bodies b0 pre) - 1))
        with (vbeg v + len ([dbl (ea_interp d)] ++ cd_layout (len fs) (dd_cols [dbl (ea_interp d)] locb cols fs) ++ dd_bodies b0 pre)) by lia.
      assert (Lfs : len fs = len pre + 1 + len post) by (rewrite E, len_app, len_cons; lia).
      assert (Vt : tw_valid t) by (rewrite Forall_forall in Hvalid; apply Hvalid; eapply nth_error_In; exact Et).
      assert (K : forall u, P u w -> exists o, tw_make bm (tw_energy t) (tw_prob t) (tw_cumul t) u = Ok o /\ R k o).
      { intros u Hu. destruct (tw_has bm t w u Hw Vt (HPh _ _ Hu)) as [T1 T2].
        eexists. split; [exact T1|]. exists t, w. auto. }
      destruct post as [|f' post].
      - rewrite len_nil in Lfs. destruct (Z.eqb_spec (len pre + 1) (len fs)); [|lia]. cbn [bind].
        apply K. apply HPl. cbn [dd_bodies] in Q1. rewrite app_nil_r in Q1. exact Q1.
      - rewrite len_cons in Lfs. pose proof (len_nonneg post).
        destruct (Z.eqb_spec (len pre + 1) (len fs)); [lia|].
        unfold values. rewrite (dd_rel_has bm v _ _ _ _ Hv Hall Hb Hpos Hsz u64 conv_size (pre ++ [const w]) f' post);
          [|rewrite E, <- app_assoc; reflexivity|rewrite len_app, len_cons, len_nil; lia].
        cbn [bind]. fold b0. change (dd_nc cols) with 4. change (len [dbl (ea_interp d)]) with 1.
        pose proof (len_nonneg (dd_bodies b0 (pre ++ [const w]))).
        rewrite adv_small by lia. apply K. apply HP. eapply sub_content.
        + rewrite Q1 in Hv. exact Hv.
        + reflexivity.
        + unfold const in Q3 at 2. rewrite Q2. lia. }
    destruct Loop as (ds & Hds & Lds & Rds).
    set (o := DistDataI v locb values ds).
    assert (H2 : has v ([dbl (ea_interp d)] ++ dbl (len fs) :: concat cols ++ map dbl (dd_locs b0 fs) ++ dd_bodies b0 fs)).
    { apply (has_eq _ _ _ Hv). unfold dd_layout. fold b0. las. }
    assert (G : ea_generateBlocks bm locb v = Ok o).
    { unfold ea_generateBlocks.
      rewrite (ixss_size_at _ _ _ _ _ _ H2) by (try reflexivity; lia). cbn [bind]. cbn zeta.
      rewrite adv_small by lia.
      assert (Ev : sub v (vbeg v + 1) (vbeg v + 1 + 4 * len fs + 1) = dd_vv v [dbl (ea_interp d)] cols fs).
      { unfold dd_vv. change (dd_nc cols) with 4. change (len [dbl (ea_interp d)]) with 1. f_equal; lia. }
      rewrite Ev. pose proof (dd_cd_make v _ _ _ _ Hv Hall) as M. change (dd_nc cols) with 4 in M.
      rewrite M. cbn [bind]. fold values. rewrite N. cbn [bind].
      replace (Z.to_nat (len fs)) with (length fs) by (unfold len; lia). rewrite Hds. reflexivity. }
    exists o. split; [exact G|]. split.
    { unfold ea_read. rewrite (xss_round_size_at _ _ _ _ _ _ H2) by (try reflexivity; lia). cbn [bind].
      rewrite u32_small by lia. rewrite (verify_at_least_has _ _ _ Hv) by lia. exact G. }
    split; [reflexivity|]. split.
    - split. { apply (ixss_at bm v [] (ea_interp d) _ 1 Hv); [reflexivity|lia]. }
      split; [rewrite <- Ld; exact N|].
      split; [exact (dd_column_has bm v _ _ _ _ Hv Hall 0 _ 1 eq_refl eq_refl)|].
      split; [exact (dd_column_has bm v _ _ _ _ Hv Hall 1 _ 2 eq_refl eq_refl)|].
      split; [exact (dd_column_has bm v _ _ _ _ Hv Hall 2 _ 3 eq_refl eq_refl)|].
      split.
      + intros k t Hk.
        assert (Hkl : (k < length fs)%nat) by (apply nth_error_len in Hk; unfold len in *; lia).
        split; [|split; [|split; [|split]]].
        * apply (dd_value_has bm v _ _ _ _ Hv Hall 0 (map tw_energy (ea_dists d)) k); auto. rewrite nth_error_map, Hk. reflexivity.
        * apply (dd_value_has bm v _ _ _ _ Hv Hall 1 (map tw_prob (ea_dists d)) k); auto. rewrite nth_error_map, Hk. reflexivity.
        * apply (dd_value_has bm v _ _ _ _ Hv Hall 2 (map tw_cumul (ea_dists d)) k); auto. rewrite nth_error_map, Hk. reflexivity.
        * destruct (nth_error ds k) as [u|] eqn:Eu; [|apply nth_error_None in Eu; lia].
          exists u. split.
          -- unfold di_datum. cbn [di_values di_dists o]. unfold values.
             rewrite (dd_verify_has bm v _ _ _ _ Hv Hall) by (unfold len; lia). cbn [bind].
             apply (at_has _ _ _ _ Eu); [reflexivity|]. unfold len in *. lia.
          -- destruct (Rds k u Eu) as (t' & w & Ht' & Hs1 & _). congruence.
        * destruct (ea_at_k k t Hk) as (pre & w & post & E & Lp & Hw). fold fs in E.
          destruct (dd_split [dbl (ea_interp d)] locb cols fs Hall pre _ post E) as (Q1 & Q2 & Q3 & Q4).
          fold b0 in Q1, Q2. eexists _, w, _. split; [exact Q1|]. split; [exact Hw|].
          rewrite Q2. change (len [dbl (ea_interp d)]) with 1. change (dd_nc cols) with 4.
          assert (Lk : Z.of_nat k + 1 = len pre + 1) by (unfold len; lia). rewrite Lk.
          unfold di_rel. cbn [di_values di_locb o]. unfold values.
          rewrite (dd_rel_has bm v _ _ _ _ Hv Hall Hb Hpos Hsz u64 conv_size pre _ post _ E eq_refl).
          change (len [dbl (ea_interp d)]) with 1. change (dd_nc cols) with 4. fold b0. f_equal. lia.
      + intros Hd i Hi'. unfold di_datum. cbn [di_values o]. unfold values.
        rewrite (dd_verify_oob bm v _ _ _ _ Hv Hall i) by (auto; rewrite Ld; exact Hi'). reflexivity.
    - assert (Lk : length (ea_dists d) = length ds) by (rewrite Lds; unfold fs; rewrite map_length, ea_Lws; reflexivity).
      clear - Rds Lk. unfold R in Rds. cbn [di_dists o]. revert Rds. generalize ds Lk. generalize (ea_dists d).
      induction l as [|t l IH]; intros [|u us] Lk' Rd; try discriminate; constructor.
      + destruct (Rd 0%nat u eq_refl) as (t' & w & Ht & _ & Hf & Hw & Hp). injection Ht as <-. eauto.
      + apply IH; [cbn in Lk'; lia|]. intros k d' Hk. exact (Rd (S k) d' Hk).
  Qed.
End EA.

(** * Law 61: EnergyAngleDistributionData *)

(** The elements handed back by distributions() of a rebuilt distribution,
    src/ACEtk/continuous/EnergyAngleDistributionData/src/generateXSS.hpp:24-28 *)
Definition tw_reuse (ts : list tw_obj) : outcome (list ea_elem) :=
  mapM (fun t => w <- xss_all (two_v t) ;; Ok (two_energy t, two_prob t, two_cumul t, w)) ts.

(** .../EnergyAngleDistributionData/src/generateXSS.hpp:15-29: every distribution is
    remade with its locator, which is read from the double just stored. *)
Definition ea_elem_of bm (d : ea_in) : outcome dd_elem :=
  o <- ea_of bm d (ea_locb d) ;;
  Ok (ea_value d, fun x =>
    locb <- trunc_to_size x ;;
    i <- di_interpolation bm o ;;
    es <- tw_reuse (di_dists o) ;;
    temp <- ea_build bm i es locb ;;
    xss_all (di_v temp)).

(** EnergyAngleDistributionData/src/ctor.hpp:17-24, 44-45 *)
Definition ead_generateXSS bm (nbt int : list Z) (locb : Z) (ds : list ea_in) : outcome (list double) :=
  es <- mapM (ea_elem_of bm) ds ;; dd_generateXSS nbt int locb es.
Definition ead_of bm (nbt int : list Z) (ds : list ea_in) (locb : Z) : outcome (distributionData ea_obj) :=
  es <- mapM (ea_elem_of bm) ds ;; dd_of bm (ea_make bm) nbt int es locb.
Definition ead_make bm (locb : Z) (v : view) : outcome (distributionData ea_obj) :=
  dd_make bm (ea_make bm) locb v.

(** The distributions can be constructed, with the locator base the user chose. *)
Definition ea_valid (d : ea_in) : Prop :=
  0 <= ea_interp d < 2 ^ 31 /\ Forall tw_valid (ea_dists d) /\ 1 <= ea_locb d
  /\ exists l, ea_generateXSS d (ea_locb d) = Ok l /\ ea_locb d + len l <= 2 ^ 31.

Lemma ea_valid_words d : ea_valid d -> exists ws,
  tws (ea_dists d) ws
  /\ mapM tw_elem (ea_dists d) = Ok (tw_es (ea_dists d) ws)
  /\ forall b, len (ea_layout d ws b) = 2 + 4 * len ws + len (concat ws)
     /\ ea_locb d + len (ea_layout d ws b) <= 2 ^ 31.
Proof.
  intros (Hi & Hv & Hb & l & Hg & Hs). unfold ea_generateXSS in Hg.
  destruct (mapM tw_elem (ea_dists d)) as [es| |] eqn:E; try discriminate. cbn [bind] in Hg.
  destruct (tw_words_list _ _ E) as (ws & F & ->). exists ws. split; [exact F|]. split; [reflexivity|].
  intros b. rewrite ea_layout_len by (symmetry; exact (Forall2_len _ _ _ F)). split; [reflexivity|].
  rewrite (ea_len_gen d ws F _ _ Hg) in Hs. lia.
Qed.

Lemma ea_blocks_v bm locb v o : ea_generateBlocks bm locb v = Ok o -> di_v o = v.
Proof.
  unfold ea_generateBlocks. intros H.
  repeat match type of H with
  | bind ?e _ = Ok _ => destruct e; try discriminate; cbn [bind] in H; cbn zeta in H
  end. injection H as <-. reflexivity.
Qed.

Lemma tw_reuse_ok ds ts :
  Forall2 (fun t u => (two_energy u, two_prob u, two_cumul u) = (tw_energy t, tw_prob t, tw_cumul t)
                    /\ exists w, tw_words t = Ok w /\ content (two_v u) w) ds ts ->
  exists ws, tws ds ws /\ tw_reuse ts = Ok (tw_es ds ws).
Proof.
  induction 1 as [|d t ds ts (Hv & w & Hw & Hc) F IH].
  - exists []. split; [constructor|reflexivity].
  - destruct IH as (ws & Fw & E). exists (w :: ws). split; [constructor; assumption|].
    unfold tw_reuse in *. cbn [mapM]. rewrite (xss_all_content _ _ Hc). cbn [bind]. rewrite E. cbn [bind].
    unfold tw_es. cbn [combine map fst snd]. injection Hv as -> -> ->. reflexivity.
Qed.

Lemma tws_fun ds ws ws' : tws ds ws -> tws ds ws' -> ws = ws'.
Proof.
  intros F; revert ws'; induction F as [|d w ds ws H F IH]; intros ws' F'; inversion F'; subst; [reflexivity|].
  f_equal; [congruence|auto].
Qed.

Lemma ea_elem_spec bm d ws : ea_valid d -> tws (ea_dists d) ws ->
  exists words, ea_elem_of bm d = Ok (ea_value d, words)
    /\ words_ok (ea_value d, words) (ea_layout d ws) /\ words_len (ea_value d, words) (ea_layout d ws).
Proof.
  intros Hd F. destruct (ea_valid_words d Hd) as (ws0 & F0 & M & HL).
  rewrite <- (tws_fun _ _ _ F F0) in *. clear F0 ws0.
  destruct Hd as (Hi & Hv & Hb & _).
  destruct (HL (ea_locb d)) as [HL1 HL2].
  assert (HG : forall b, 0 <= b -> b + len (ea_layout d ws b) <= 2 ^ 31 ->
     ea_generate (ea_interp d) b (tw_es (ea_dists d) ws) = Ok (ea_layout d ws b)).
  { intros b Hb0 Hb1. destruct (HL b) as [E _]. apply ea_gen_ok; auto. lia. }
  set (l := ea_layout d ws (ea_locb d)) in *.
  assert (Lm : len l < max_words) by (unfold max_words; lia).
  pose proof (own_content l Lm) as Hc.
  destruct (ea_read_has d ws F Hi Hv (ea_locb d) bm (own l) content Hb HL2 (content_has _ _ Hc)
              (fun w l C => C) content_has) as (o & G & Mo & Vo & So & Fo).
  { intros l1 l2 E. apply (sub_content_tail _ l1 l2); [|reflexivity]. fold l in E. rewrite <- E. exact Hc. }
  assert (O : ea_of bm d (ea_locb d) = Ok o).
  { unfold ea_of. rewrite M. cbn [bind]. unfold ea_build.
    rewrite (HG (ea_locb d)) by (auto; lia). cbn [bind]. exact G. }
  destruct (tw_reuse_ok _ _ Fo) as (ws' & F' & R). rewrite <- (tws_fun _ _ _ F F') in R.
  destruct So as (SI & _).
  unfold ea_elem_of. rewrite O. cbn [bind]. eexists. split; [reflexivity|]. split.
  - intros b Hb1 Hb2. cbn [snd]. rewrite trunc_to_size_dbl by lia. cbn [bind].
    rewrite SI. cbn [bind]. rewrite R. cbn [bind].
    unfold ea_build. rewrite (HG b ltac:(lia) Hb2). cbn [bind].
    assert (Lm' : len (ea_layout d ws b) < max_words) by (unfold max_words; lia).
    pose proof (own_content _ Lm') as Hc'.
    destruct (ea_read_has d ws F Hi Hv b bm (own (ea_layout d ws b)) content ltac:(lia) Hb2 (content_has _ _ Hc')
              (fun w l C => C) content_has) as (o' & G' & Mo' & Vo' & _).
    { intros l1 l2 E. apply (sub_content_tail _ l1 l2); [|reflexivity]. rewrite <- E. exact Hc'. }
    rewrite G'. cbn [bind]. rewrite Vo'. apply xss_all_own.
  - intros x w b. cbn [snd]. rewrite SI, R.
    destruct (trunc_to_size x) as [lb| |]; try discriminate. cbn [bind]. unfold ea_build.
    destruct (ea_generate (ea_interp d) lb (tw_es (ea_dists d) ws)) as [l'| |] eqn:E; try discriminate.
    cbn [bind]. destruct (ea_generateBlocks bm lb (own l')) as [o'| |] eqn:E'; try discriminate.
    cbn [bind]. rewrite (ea_blocks_v _ _ _ _ E'), xss_all_own. intros H. injection H as <-.
    rewrite (ea_len_gen d ws F _ _ E). destruct (HL b) as [-> _]. reflexivity.
Qed.

Definition ead_shows bm (locb : Z) (l : list double) (o : distributionData ea_obj)
    (nbt int : list Z) (ds : list ea_in) : Prop :=
  dd_NB bm o = Ok (len nbt) /\ dd_NBT bm o = Ok (map dbl nbt) /\ dd_INT bm o = Ok (map dbl int)
  /\ dd_N bm o = Ok (len ds) /\ dd_energies bm o = Ok (map ea_value ds)
  /\ (forall k d, nth_error ds k = Some d ->
        dd_energy bm o (Z.of_nat k + 1) = Ok (ea_value d)
        /\ exists before w after u loc,
             l = before ++ w ++ after /\ ea_generateXSS d loc = Ok w
             /\ loc = len before + locb
             /\ dd_locator bm o (Z.of_nat k + 1) = Ok loc
             /\ dd_rel bm o (Z.of_nat k + 1) = Ok (len before + 1)
             /\ dd_datum bm o (Z.of_nat k + 1) = Ok (ea_value d, u) /\ ea_shows bm loc w u d)
  /\ (debug bm = true -> forall i, u64 i < 1 \/ len ds < u64 i -> dd_datum bm o i = Throw OutOfRange).

(** The words functions of a list of valid distributions. *)
Lemma ea_list bm ds : Forall ea_valid ds -> exists es fs,
  mapM (ea_elem_of bm) ds = Ok es /\ map fst es = map ea_value ds
  /\ Forall2 (fun d f => exists ws, tws (ea_dists d) ws /\ f = ea_layout d ws) ds fs
  /\ Forall2 words_ok es fs /\ Forall2 words_len es fs
  /\ Forall (fun f => forall b, 0 < len (f b)) fs
  /\ Forall (fun f => forall b b', len (f b) = len (f b')) fs /\ len fs = len ds.
Proof.
  induction 1 as [|d ds Hd H IH].
  - exists [], []. repeat split; constructor.
  - destruct IH as (es & fs & M & V & F & W1 & W2 & W3 & W4 & W5).
    destruct (ea_valid_words d Hd) as (ws & Fw & _ & HL).
    destruct (ea_elem_spec bm d ws Hd Fw) as (words & E & K1 & K2).
    exists ((ea_value d, words) :: es), (ea_layout d ws :: fs).
    cbn [mapM]. rewrite E. cbn [bind]. rewrite M. cbn [bind].
    split; [reflexivity|]. split; [cbn [map fst]; congruence|].
    split; [constructor; eauto|]. split; [constructor; assumption|]. split; [constructor; assumption|].
    split; [constructor; [|exact W3]|split; [constructor; [|exact W4]|rewrite !len_cons; lia]].
    + intros b. destruct (HL b) as [-> _]. nonneg. lia.
    + intros b b'. destruct (HL b) as [-> _]. destruct (HL b') as [-> _]. reflexivity.
Qed.

Lemma ead_round_trip bm0 nbt int locb ds l :
  ead_generateXSS bm0 nbt int locb ds = Ok l -> Forall ea_valid ds -> 1 <= locb -> locb + len l <= 2 ^ 31 ->
  (forall bm v, has v l -> exists o, ead_make bm locb v = Ok o /\ ead_shows bm locb l o nbt int ds)
  /\ (forall bm, ead_of bm nbt int ds locb = ead_make bm locb (own l)).
Proof.
  intros Hgen Hvalid Hlocb Hsize.
  destruct (ea_list bm0 ds Hvalid) as (es & fs & M & W5 & F & W1 & W2 & W3 & W4 & W6).
  unfold ead_generateXSS in Hgen. rewrite M in Hgen. cbn [bind] in Hgen.
  set (b0 := ddh_b0 nbt locb fs).
  destruct (dd_generateXSS_len nbt int locb _ fs l b0 W2 W4 Hgen) as [Hint Hlen].
  assert (Hs : b0 + len (dd_bodies b0 fs) <= 2 ^ 31) by (unfold b0, ddh_b0 in *; lia).
  assert (El : l = dd_layout (id_layout nbt int) locb [map ea_value ds] fs).
  { rewrite (dd_generateXSS_ok nbt int locb _ fs W1 W3 Hint ltac:(lia) Hs), W5 in Hgen. congruence. }
  assert (Hlv : len (map ea_value ds) = len fs) by (rewrite len_map; lia).
  assert (HD : forall k d, nth_error ds k = Some d -> (k < length fs)%nat).
  { intros k d Hk. apply nth_error_len in Hk. unfold len in *. lia. }
  assert (Hat : forall pre f post, fs = pre ++ f :: post -> exists d ws,
     nth_error ds (length pre) = Some d /\ tws (ea_dists d) ws /\ f = ea_layout d ws).
  { intros pre f post E.
    assert (Hf : nth_error fs (length pre) = Some f) by (rewrite E; apply nth_error_mid).
    destruct (Forall2_nth _ _ _ _ _ F Hf) as (d & Hd & ws & Hw & Hl). eauto. }
  assert (Hloc : forall pre f post, fs = pre ++ f :: post ->
     1 <= b0 + len (dd_bodies b0 pre)
     /\ b0 + len (dd_bodies b0 pre) + len (f (b0 + len (dd_bodies b0 pre))) <= 2 ^ 31).
  { intros pre f post E. rewrite E in Hs at 1. rewrite dd_bodies_app, len_app in Hs. cbn [dd_bodies] in Hs.
    rewrite len_app in Hs.
    match type of Hs with context [len (dd_bodies ?b post)] => pose proof (len_nonneg (dd_bodies b post)) end.
    pose proof (len_nonneg (dd_bodies b0 pre)). pose proof (len_nonneg nbt). pose proof (len_nonneg fs).
    split; [unfold b0 at 1, ddh_b0; lia|lia]. }
  assert (Hread : forall bm pre f post x w, fs = pre ++ f :: post ->
       nth_error (map ea_value ds) (length pre) = Some x ->
       has w (f (b0 + len (dd_bodies b0 pre))) ->
       exists u, ea_make bm x (b0 + len (dd_bodies b0 pre)) w = Ok u
         /\ exists d o ws, nth_error ds (length pre) = Some d /\ u = (ea_value d, o)
            /\ tws (ea_dists d) ws
            /\ ea_shows bm (b0 + len (dd_bodies b0 pre)) (ea_layout d ws (b0 + len (dd_bodies b0 pre))) o d).
  { intros bm pre f post x w E Hx Hw.
    destruct (Hat pre f post E) as (d & ws & Hd & Fw & ->).
    rewrite nth_error_map, Hd in Hx. cbn in Hx. injection Hx as <-.
    assert (Vd : ea_valid d) by (rewrite Forall_forall in Hvalid; apply Hvalid; eapply nth_error_In; exact Hd).
    destruct Vd as (Hi & Hv & _). destruct (Hloc pre _ post E) as [B1 B2].
    destruct (ea_read_has d ws Fw Hi Hv _ bm w has B1 B2 Hw content_has (fun w l H => H)) as (o & G & Mo & Vo & So & Fo).
    { intros l1 l2 El'. apply (sub_has_tail _ l1 l2); [rewrite <- El'; exact Hw|reflexivity]. }
    exists (ea_value d, o). unfold ea_make. rewrite Mo. split; [reflexivity|].
    exists d, o, ws. auto. }
  split.
  - intros bm v Hv. rewrite El in Hv.
    destruct (ddh_blocks bm v nbt int locb (map ea_value ds) fs Hint Hlv Hv Hlocb W3 Hs (ea_make bm)
       (fun k u => exists pre f post d o ws, k = length pre /\ fs = pre ++ f :: post
            /\ nth_error ds k = Some d /\ u = (ea_value d, o)
            /\ tws (ea_dists d) ws
            /\ ea_shows bm (b0 + len (dd_bodies b0 pre)) (ea_layout d ws (b0 + len (dd_bodies b0 pre))) o d) has)
       as (o & _ & Mo & Vo & Lo & So & _).
    + intros w l0 C; apply content_has; exact C.
    + intros l1 l2 E. apply (sub_has_tail v l1 l2); [rewrite <- E; exact Hv|reflexivity].
    + intros pre f post x w E Hx Hw.
      destruct (Hread bm pre f post x w E Hx Hw) as (u & Hu & d & o & ws & Hd & Ho & Hw' & Hsh).
      exists u. split; [exact Hu|]. exists pre, f, post, d, o, ws. auto 10.
    + exists o. split; [exact Mo|].
      destruct So as (S1 & S2 & S3 & S4 & S5 & S6 & S7 & S8 & S9).
      split; [exact S1|]. split; [exact S2|]. split; [exact S3|].
      split; [rewrite <- W6; exact S4|]. split; [exact S5|]. split; [|rewrite <- W6; exact S9].
      intros k d Hk. split.
      * apply S6. rewrite nth_error_map, Hk. reflexivity.
      * destruct (S8 k (HD _ _ Hk)) as (t & Ht & pre & f & post & d' & u & ws & Ek & E & Hd' & Hu & Fw & Hsh).
        assert (d' = d) by congruence. subst d'.
        destruct (dd_split (id_layout nbt int) locb [map ea_value ds] fs ltac:(repeat constructor; exact Hlv) pre _ post E)
          as (Q1 & Q2 & Q3 & Q4).
        rewrite ddh_b0_eq in Q1, Q2 by assumption. fold b0 in Q1, Q2.
        destruct (Hat pre f post E) as (d'' & ws' & Hd'' & Fw' & Ef).
        assert (d'' = d) by congruence. subst d''.
        rewrite <- (tws_fun _ _ _ Fw Fw') in Ef.
        destruct (Hloc pre f post E) as [B1 B2].
        assert (Vd : ea_valid d) by (rewrite Forall_forall in Hvalid; apply Hvalid; eapply nth_error_In; exact Hk).
        destruct (ea_valid_words d Vd) as (ws2 & Fw2 & M2 & _). destruct Vd as (Hi & Hv' & _).
        rewrite <- (tws_fun _ _ _ Fw Fw2) in M2.
        eexists _, _, _, u, (b0 + len (dd_bodies b0 pre)).
        split; [rewrite El; exact Q1|]. rewrite Q2. rewrite (len_id_layout nbt int Hint).
        change (dd_nc [map ea_value ds]) with 2.
        destruct (S7 pre _ post E) as [R1 R2]. fold b0 in R1, R2.
        assert (Ek' : Z.of_nat k + 1 = len pre + 1) by (unfold len; lia). rewrite Ek'.
        split; [|split; [|split; [exact R1|split; [|split]]]].
        -- subst f. unfold ea_generateXSS. rewrite M2. cbn [bind]. rewrite (ea_layout_len d ws _ (eq_sym (Forall2_len _ _ _ Fw))) in B2. apply ea_gen_ok; auto; lia.
        -- unfold b0 at 1, ddh_b0. lia.
        -- rewrite R2. f_equal. unfold b0 at 1, ddh_b0. lia.
        -- rewrite <- Ek'. rewrite Ht, Hu. reflexivity.
        -- subst f. exact Hsh.
  - intros bm. unfold ead_of.
    destruct (ea_list bm ds Hvalid) as (es' & fs' & M' & W5' & F' & W1' & W2' & W3' & W4' & W6').
    assert (Ef : fs' = fs).
    { clear - F F'. revert fs' F'. induction F as [|d f ds fs (ws & Hw & ->) F IH]; intros fs' F'; inversion F'; subst; [reflexivity|].
      f_equal; [|auto]. destruct H1 as (ws' & Hw' & ->). rewrite (tws_fun _ _ _ Hw Hw'). reflexivity. }
    subst fs'. rewrite M'. cbn [bind]. unfold dd_of.
    rewrite (dd_generateXSS_ok nbt int locb _ fs W1' W3' Hint ltac:(lia) Hs), W5', <- El. cbn [bind].
    assert (Lm : len l < max_words) by (unfold max_words; lia).
    pose proof (content_has _ _ (own_content l Lm)) as Hv. rewrite El in Hv at 2.
    destruct (ddh_blocks bm (own l) nbt int locb (map ea_value ds) fs Hint Hlv Hv Hlocb W3 Hs (ea_make bm)
       (fun k t => True) has)
       as (o & G & Mo & Vo & Lo & So & _).
    + intros w l0 C; apply content_has; exact C.
    + intros l1 l2 E. apply (sub_has_tail _ l1 l2); [rewrite <- E; exact Hv|reflexivity].
    + intros pre f post x w E Hx Hw. destruct (Hread bm pre f post x w E Hx Hw) as (u & Hu & _). eauto.
    + unfold ead_make. rewrite G, Mo. reflexivity.
Qed.
