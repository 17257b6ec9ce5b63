(** Rebuilding the distributions with locators (laws 4, 44, 61 and 67) when they
    are placed in an energy distribution block. *)
From Coq Require Import ZArith Bool List Lia Permutation Sorted.
From Coq Require Import ZifyBool ZifyNat.
From Verif Require Export SimpleLaws.
Import ListNotations.
Open Scope Z_scope.

(** ** Code *)

(** Conversion of the doubles of boundaries() and interpolants() to the
    [std::vector< long >] argument: double to long, truncation, undefined if out
    of range. *)
Definition trunc_to_long (x : double) : outcome Z :=
  match sf_trunc x with
  | Some z => if (- 2 ^ 63 <=? z) && (z <? 2 ^ 63) then Ok z else UB
  | None => UB
  end.

(** The rebuild done in generateXSS of the energy distribution blocks, e.g.
    src/ACEtk/continuous/EnergyDistributionBlock/src/generateXSS.hpp:95-142: a
    temporary object is constructed from boundaries(), interpolants(),
    distributions() and the new locator, and its words are inserted.  [el] gives
    the words of one distribution of distributions() for its locator. *)
Definition dd_remake {D} bm (gd : double -> Z -> view -> outcome D) (el : D -> outcome dd_elem) (o : distributionData D) (b : Z)
  : outcome (list double) :=
  nbt <- (r <- dd_NBT bm o ;; mapM trunc_to_long r) ;;
  int <- (r <- dd_INT bm o ;; mapM trunc_to_long r) ;;
  es <- mapM el (dd_dists o) ;;
  temp <- dd_of bm gd nbt int es b ;;
  xss_all (dd_v temp).

(** distribution.begin(), distribution.end():
    src/ACEtk/base/DistributionData/src/generateXSS.hpp:23-24 *)
Definition tq_el (t : tq_obj) : outcome dd_elem :=
  l <- xss_all (snd t) ;; Ok (fst t, fun _ : double => Ok l).
(** src/ACEtk/continuous/AngleEnergyDistributionData/src/generateXSS.hpp:19-29 *)
Definition ae_el bm (o : ae_obj) : outcome dd_elem :=
  Ok (fst o, fun x =>
    locb <- trunc_to_size x ;;
    i <- di_interpolation bm (snd o) ;;
    es <- tq_reuse (di_dists (snd o)) ;;
    temp <- di_of bm (tq_make bm) i es locb ;;
    xss_all (di_v temp)).
(** src/ACEtk/continuous/EnergyAngleDistributionData/src/generateXSS.hpp:15-29 *)
Definition ea_el bm (o : ea_obj) : outcome dd_elem :=
  Ok (fst o, fun x =>
    locb <- trunc_to_size x ;;
    i <- di_interpolation bm (snd o) ;;
    es <- tw_reuse (di_dists (snd o)) ;;
    temp <- ea_build bm i es locb ;;
    xss_all (di_v temp)).

(** ** Lemmas *)

(** Integers that a double represents. *)
Definition exact (l : list Z) : Prop := Forall (fun z => - 2 ^ 53 < z < 2 ^ 53) l.

Lemma trunc_to_long_all l : exact l -> mapM trunc_to_long (map dbl l) = Ok l.
Proof.
  induction 1 as [|z l Hz H IH]; [reflexivity|]. cbn [map mapM].
  unfold trunc_to_long at 1. rewrite sf_trunc_dbl by lia.
  destruct ((- 2 ^ 63 <=? z) && (z <? 2 ^ 63)) eqn:E; [|lia]. cbn [bind]. rewrite IH. reflexivity.
Qed.

Lemma mapM_el {D} (el : D -> outcome dd_elem) (os : list D) (vals : list double) (fs : list (Z -> list double)) :
  length os = length fs -> length vals = length fs ->
  (forall k d x f, nth_error os k = Some d -> nth_error vals k = Some x -> nth_error fs k = Some f ->
     exists words, el d = Ok (x, words) /\ words_ok (x, words) f) ->
  exists es, mapM el os = Ok es /\ Forall2 words_ok es fs /\ map fst es = vals.
Proof.
  revert vals fs. induction os as [|d os IH]; intros vals fs L1 L2 H.
  - destruct fs; [|discriminate]. destruct vals; [|discriminate]. exists []. repeat split; constructor.
  - destruct fs as [|f fs]; [discriminate|]. destruct vals as [|x vals]; [discriminate|].
    destruct (H 0%nat d x f eq_refl eq_refl eq_refl) as (words & E & W).
    destruct (IH vals fs) as (es & Es & F & V); [cbn in *; lia|cbn in *; lia| |].
    { intros k d' x' f'. exact (H (S k) d' x' f'). }
    exists ((x, words) :: es). cbn [mapM]. rewrite E. cbn [bind]. rewrite Es. cbn [bind].
    split; [reflexivity|]. split; [constructor; assumption|]. cbn [map fst]. congruence.
Qed.

Section Remake.
  Context {D : Type}.
  Variables (bm : build) (gd : double -> Z -> view -> outcome D) (el : D -> outcome dd_elem).
  Variables (nbt int : list Z) (vals : list double) (fs : list (Z -> list double)).
  Hypothesis Hint : len int = len nbt.
  Hypothesis Hlen : len vals = len fs.
  Hypothesis Hpos : Forall (fun f => forall b, 0 < len (f b)) fs.
  Hypothesis Hconst : Forall (fun f => forall b b', len (f b) = len (f b')) fs.
  Hypothesis Hne : fs <> [].
  Hypothesis Hnbt : exact nbt.
  Hypothesis Hexi : exact int.

  Definition rm_layout (b : Z) : list double := dd_layout (id_layout nbt int) b [vals] fs.

  Hypothesis Hgd : forall f x k b w,
    nth_error fs k = Some f -> nth_error vals k = Some x ->
    1 <= b -> b + len (f b) <= 2 ^ 31 -> content w (f b) ->
    exists d words, gd x b w = Ok d /\ el d = Ok (x, words) /\ words_ok (x, words) f.

  Lemma bodies_len_const b b' (l : list (Z -> list double)) : Forall (fun f => forall b b', len (f b) = len (f b')) l ->
    len (dd_bodies b l) = len (dd_bodies b' l).
  Proof.
    intros H; revert b b'; induction H as [|f l Hf H IH]; intros b b'; [reflexivity|].
    cbn [dd_bodies]. rewrite !len_app, (Hf b b'). f_equal. apply IH.
  Qed.

  Lemma rm_layout_len b : len (rm_layout b) = 2 + 2 * len nbt + 2 * len fs + len (dd_bodies 0 fs).
  Proof.
    unfold rm_layout. rewrite len_dd_layout by (repeat constructor; exact Hlen).
    rewrite (len_id_layout nbt int Hint). change (len [vals]) with 1.
    rewrite (bodies_len_const _ 0 fs Hconst). lia.
  Qed.

  (** An object read from exactly the layout for [b] can be rebuilt for any other locator. *)
  Lemma rm_remake b v : 1 <= b -> b + len (rm_layout b) <= 2 ^ 31 -> content v (rm_layout b) ->
    exists o, dd_generateBlocks bm gd b v = Ok o /\ dd_make bm gd b v = Ok o /\ dd_v o = v
      /\ dd_emin bm o = Ok (hd (dbl 0) vals) /\ dd_emax bm o = Ok (last vals (dbl 0))
      /\ forall b', 1 <= b' -> b' + len (rm_layout b') <= 2 ^ 31 ->
           dd_remake bm gd el o b' = Ok (rm_layout b').
  Proof.
    assert (Key : forall b v, 1 <= b -> b + len (rm_layout b) <= 2 ^ 31 -> content v (rm_layout b) ->
      exists o, dd_generateBlocks bm gd b v = Ok o /\ dd_make bm gd b v = Ok o
      /\ dd_v o = v /\ dd_locb o = b
      /\ ddh_shows bm nbt int b vals fs (fun k d => exists x f words, nth_error vals k = Some x /\ nth_error fs k = Some f
            /\ el d = Ok (x, words) /\ words_ok (x, words) f) o
      /\ length (dd_dists o) = length fs
      /\ forall k d, nth_error (dd_dists o) k = Some d ->
          exists x f words, nth_error vals k = Some x /\ nth_error fs k = Some f
            /\ el d = Ok (x, words) /\ words_ok (x, words) f).
    { clear b v. intros b v Hb Hs Hc. pose proof (rm_layout_len b) as L. rewrite L in Hs.
      pose proof (len_nonneg nbt); pose proof (len_nonneg fs); pose proof (len_nonneg (dd_bodies 0 fs)).
      set (b0 := ddh_b0 nbt b fs).
      assert (Hsz : b0 + len (dd_bodies b0 fs) <= 2 ^ 31).
      { rewrite (bodies_len_const b0 0 fs Hconst). unfold b0, ddh_b0. lia. }
      apply (ddh_blocks bm v nbt int b vals fs Hint Hlen (content_has _ _ Hc) Hb Hpos Hsz gd _ content).
      - auto.
      - intros l1 l2 E. apply (sub_content_tail v l1 l2); [|reflexivity]. unfold rm_layout in Hc. rewrite <- E. exact Hc.
      - intros pre f post x w E Hx Hw. fold b0 in Hw. fold b0.
        assert (Hf : nth_error fs (length pre) = Some f) by (rewrite E; apply nth_error_mid).
        assert (B : 1 <= b0 + len (dd_bodies b0 pre)
          /\ b0 + len (dd_bodies b0 pre) + len (f (b0 + len (dd_bodies b0 pre))) <= 2 ^ 31).
        { rewrite E in Hsz at 1. rewrite dd_bodies_app, len_app in Hsz. cbn [dd_bodies] in Hsz. rewrite len_app in Hsz.
          match type of Hsz with context [len (dd_bodies ?b post)] => pose proof (len_nonneg (dd_bodies b post)) end.
          pose proof (len_nonneg (dd_bodies b0 pre)).
          split; [unfold b0 at 1, ddh_b0; lia|lia]. }
        destruct B as [B1 B2].
        destruct (Hgd f x (length pre) _ w Hf Hx B1 B2 Hw) as (d & words & G & E1 & W).
        exists d. split; [exact G|]. exists x, f, words. auto. }
    intros Hb Hs Hc. destruct (Key b v Hb Hs Hc) as (o & G & M & V & Lb & S & Ld & R).
    exists o. split; [exact G|]. split; [exact M|]. split; [exact V|].
    destruct S as (S1 & S2 & S3 & S4 & S5 & S6 & S7 & S8 & S9).
    assert (Hv : vals <> []) by (intros ->; destruct fs; [congruence|rewrite len_nil, len_cons in Hlen; nonneg; lia]).
    split; [|split].
    - unfold dd_emin. destruct vals as [|x r] eqn:Ev; [congruence|]. exact (S6 0%nat x eq_refl).
    - unfold dd_emax. rewrite S4. cbn [bind].
      destruct (exists_last Hv) as (r & x & Ev). rewrite Ev at 1.
      rewrite last_last. replace (len fs) with (Z.of_nat (length r) + 1).
      2: { rewrite <- Hlen, Ev, len_app. unfold len. cbn [length]. lia. }
      apply S6. rewrite Ev. apply nth_error_mid.
    - intros b' Hb' Hs'. unfold dd_remake. rewrite S2. cbn [bind]. rewrite (trunc_to_long_all _ Hnbt). cbn [bind].
      rewrite S3. cbn [bind]. rewrite (trunc_to_long_all _ Hexi). cbn [bind].
      destruct (mapM_el el (dd_dists o) vals fs Ld) as (es & Es & F & Vs).
      { unfold len in Hlen. lia. }
      { intros k d x f Hd Hx Hf. destruct (R k d Hd) as (x' & f' & words & Hx' & Hf' & E & W).
        rewrite Hx in Hx'. injection Hx' as <-. rewrite Hf in Hf'. injection Hf' as <-. eauto. }
      rewrite Es. cbn [bind]. unfold dd_of.
      pose proof (rm_layout_len b') as L'.
      pose proof (len_nonneg nbt); pose proof (len_nonneg fs); pose proof (len_nonneg (dd_bodies 0 fs)).
      assert (Gen : dd_generateXSS nbt int b' es = Ok (rm_layout b')).
      { rewrite (dd_generateXSS_ok nbt int b' es fs F Hpos Hint ltac:(lia)).
        - rewrite Vs. reflexivity.
        - rewrite (bodies_len_const _ 0 fs Hconst). unfold ddh_b0. lia. }
      rewrite Gen. cbn [bind].
      destruct (Key b' (own (rm_layout b')) Hb' Hs') as (o' & G' & _ & V' & _).
      { apply own_content. unfold max_words. lia. }
      rewrite G'. cbn [bind]. rewrite V'. apply xss_all_own.
  Qed.
End Remake.

(** ** Laws 4 and 44 *)

Definition og_remake bm := dd_remake bm (tq_make bm) tq_el.
Definition aed_remake bm := dd_remake bm (ae_make bm) (ae_el bm).
Definition ead_remake bm := dd_remake bm (ea_make bm) (ea_el bm).

(** What is needed of the words [f b] of a distribution placed at locator [b]. *)
Definition word_fun (f : Z -> list double) : Prop :=
  (forall b b', len (f b) = len (f b')) /\ (forall b, 0 < len (f b)).
Definition fits (f : Z -> list double) (b : Z) : Prop := 1 <= b /\ b + len (f b) <= 2 ^ 31.

Lemma og_fs nbt int locb ds l :
  og_generateXSS nbt int locb ds = Ok l -> Forall tq_valid ds -> 1 <= locb -> locb + len l <= 2 ^ 31 ->
  exact nbt -> exact int -> ds <> [] ->
  exists f, f locb = l /\ word_fun f
  /\ (forall b, fits f b -> og_generateXSS nbt int b ds = Ok (f b))
  /\ (forall bm b v, fits f b -> content v (f b) -> exists o, og_make bm b v = Ok o /\ dd_v o = v
        /\ dd_emin bm o = Ok (hd (dbl 0) (map tq_value ds)) /\ dd_emax bm o = Ok (last (map tq_value ds) (dbl 0))
        /\ forall b', fits f b' -> og_remake bm o b' = Ok (f b')).
Proof.
  intros Hgen Hvalid Hlocb Hsize Hen Hei Hne.
  destruct (og_words_list nbt int locb ds l Hgen) as (ws & F & M).
  unfold og_generateXSS in Hgen. rewrite M in Hgen. cbn [bind] in Hgen. fold (tq_es ds ws) in M, Hgen.
  destruct (tq_es_spec ds ws F) as (W1 & W2 & W3 & W4 & W5 & W6).
  set (fs := map const ws) in *.
  destruct (dd_generateXSS_len nbt int locb _ fs l 0 W2 W4 Hgen) as [Hint Hlen].
  set (f := rm_layout nbt int (map tq_value ds) fs).
  assert (Hlv : len (map tq_value ds) = len fs) by (rewrite len_map; lia).
  assert (Lf : forall b, len (f b) = 2 + 2 * len nbt + 2 * len fs + len (dd_bodies 0 fs)).
  { intros b. apply rm_layout_len; assumption. }
  pose proof (len_nonneg nbt); pose proof (len_nonneg fs); pose proof (len_nonneg (dd_bodies 0 fs)).
  assert (Gen : forall b, fits f b -> dd_generateXSS nbt int b (tq_es ds ws) = Ok (f b)).
  { intros b [Hb Hs]. rewrite Lf in Hs. rewrite (dd_generateXSS_ok nbt int b _ fs W1 W3 Hint ltac:(lia)).
    - rewrite W5. reflexivity.
    - rewrite (bodies_len_const _ 0 fs W4). unfold ddh_b0. lia. }
  exists f. split; [|split; [|split]].
  - rewrite (Gen locb) in Hgen; [congruence|]. split; [exact Hlocb|]. rewrite Lf. lia.
  - split; intros; rewrite !Lf; [reflexivity|lia].
  - intros b Hb. unfold og_generateXSS. rewrite M. cbn [bind]. exact (Gen b Hb).
  - intros bm b v [Hb1 Hb2] Hc.
    destruct (rm_remake bm (tq_make bm) tq_el nbt int (map tq_value ds) fs Hint Hlv W3 W4) with (b := b) (v := v)
      as (o & _ & Mo & Vo & Emin & Emax & Re); auto.
    { intros E. destruct ds; [congruence|]. rewrite E, len_nil, len_cons in W6. nonneg. lia. }
    { clear - F Hvalid. intros f x k b w Hf Hx Hb1 Hb2 Hc.
      unfold fs in Hf. rewrite nth_error_map in Hf. destruct (nth_error ws k) as [w0|] eqn:Ew; [|discriminate].
      injection Hf as <-. destruct (Forall2_nth _ _ _ _ _ F Ew) as (d & Hd & Hw).
      rewrite nth_error_map, Hd in Hx. injection Hx as <-. unfold const in *.
      assert (Vd : tq_valid d) by (rewrite Forall_forall in Hvalid; apply Hvalid; eapply nth_error_In; exact Hd).
      destruct (tq_has bm d w0 b w Hw Vd (content_has _ _ Hc)) as [T1 T2].
      exists (tq_value d, w), (fun _ => Ok w0). split; [exact T1|]. split.
      - unfold tq_el. cbn [snd]. rewrite (xss_all_content _ _ Hc). reflexivity.
      - intros b' _ _. reflexivity. }
    exists o. split; [exact Mo|]. split; [exact Vo|]. split; [exact Emin|]. split; [exact Emax|].
    intros b' [B1 B2]. exact (Re b' B1 B2).
Qed.

(** ** Law 67 *)

Lemma ae_el_has bm d ws b w :
  Forall2 (fun d w => tq_words d = Ok w) (ae_dists d) ws -> 0 <= ae_interp d < 2 ^ 31 -> Forall tq_valid (ae_dists d) ->
  1 <= b -> b + len (ae_layout d ws b) <= 2 ^ 31 -> content w (ae_layout d ws b) ->
  exists o words, ae_make bm (ae_value d) b w = Ok o
    /\ ae_el bm o = Ok (ae_value d, words) /\ words_ok (ae_value d, words) (ae_layout d ws).
Proof.
  intros F Hi Hv Hb Hs Hc.
  destruct (ae_read_has d ws F Hi Hv b bm w content Hb Hs (content_has _ _ Hc)
              (fun w l C => C) content_has) as (o & G & Mo & Vo & So & Fo).
  { intros l1 l2 E. apply (sub_content_tail _ l1 l2); [|reflexivity]. rewrite <- E. exact Hc. }
  destruct (Forall2_reuse _ _ Fo) as (ws' & F' & R). rewrite <- (Forall2_words_fun _ _ _ F F') in R.
  destruct So as (SI & _).
  exists (ae_value d, o). eexists. split; [unfold ae_make; rewrite Mo; reflexivity|].
  split; [unfold ae_el; cbn [fst]; reflexivity|].
  intros b' Hb1 Hb2. cbn [snd]. rewrite trunc_to_size_dbl by lia. cbn [bind].
  rewrite SI. cbn [bind]. rewrite R. cbn [bind].
  unfold di_of. rewrite (ae_gen_ok d ws F Hi b' ltac:(lia) Hb2). cbn [bind].
  assert (Lm' : len (ae_layout d ws b') < max_words) by (unfold max_words; lia).
  pose proof (own_content _ Lm') as Hc'.
  destruct (ae_read_has d ws F Hi Hv b' bm (own (ae_layout d ws b')) content ltac:(lia) Hb2 (content_has _ _ Hc')
            (fun w l C => C) content_has) as (o' & G' & Mo' & Vo' & _).
  { intros l1 l2 E. apply (sub_content_tail _ l1 l2); [|reflexivity]. rewrite <- E. exact Hc'. }
  rewrite G'. cbn [bind]. rewrite Vo'. apply xss_all_own.
Qed.

Lemma ae_fs_fun ds fs fs' :
  Forall2 (fun d f => exists ws, Forall2 (fun d w => tq_words d = Ok w) (ae_dists d) ws /\ f = ae_layout d ws) ds fs ->
  Forall2 (fun d f => exists ws, Forall2 (fun d w => tq_words d = Ok w) (ae_dists d) ws /\ f = ae_layout d ws) ds fs' ->
  fs' = fs.
Proof.
  intros F; revert fs'; induction F as [|d f ds fs (ws & Hw & ->) F IH]; intros fs' F'; inversion F'; subst; [reflexivity|].
  f_equal; [|auto]. destruct H1 as (ws' & Hw' & ->). rewrite (Forall2_words_fun _ _ _ Hw Hw'). reflexivity.
Qed.

Lemma aed_fs bm0 nbt int locb ds l :
  aed_generateXSS bm0 nbt int locb ds = Ok l -> Forall ae_valid ds -> 1 <= locb -> locb + len l <= 2 ^ 31 ->
  exact nbt -> exact int -> ds <> [] ->
  exists f, f locb = l /\ word_fun f
  /\ (forall bm b, fits f b -> aed_generateXSS bm nbt int b ds = Ok (f b))
  /\ (forall bm b v, fits f b -> content v (f b) -> exists o, aed_make bm b v = Ok o /\ dd_v o = v
        /\ dd_emin bm o = Ok (hd (dbl 0) (map ae_value ds)) /\ dd_emax bm o = Ok (last (map ae_value ds) (dbl 0))
        /\ forall b', fits f b' -> aed_remake bm o b' = Ok (f b')).
Proof.
  intros Hgen Hvalid Hlocb Hsize Hen Hei Hne.
  destruct (ae_list bm0 ds Hvalid) as (es & fs & M & W5 & F & W1 & W2 & W3 & W4 & W6).
  unfold aed_generateXSS in Hgen. rewrite M in Hgen. cbn [bind] in Hgen.
  destruct (dd_generateXSS_len nbt int locb _ fs l 0 W2 W4 Hgen) as [Hint Hlen].
  set (f := rm_layout nbt int (map ae_value ds) fs).
  assert (Hlv : len (map ae_value ds) = len fs) by (rewrite len_map; lia).
  assert (Lf : forall b, len (f b) = 2 + 2 * len nbt + 2 * len fs + len (dd_bodies 0 fs)).
  { intros b. apply rm_layout_len; assumption. }
  pose proof (len_nonneg nbt); pose proof (len_nonneg fs); pose proof (len_nonneg (dd_bodies 0 fs)).
  assert (Gen : forall bm b, fits f b -> aed_generateXSS bm nbt int b ds = Ok (f b)).
  { intros bm b [Hb Hs]. rewrite Lf in Hs. unfold aed_generateXSS.
    destruct (ae_list bm ds Hvalid) as (es' & fs' & M' & W5' & F' & W1' & W2' & W3' & W4' & W6').
    pose proof (ae_fs_fun _ _ _ F F') as ->. rewrite M'. cbn [bind].
    rewrite (dd_generateXSS_ok nbt int b _ fs W1' W3 Hint ltac:(lia)).
    - rewrite W5'. reflexivity.
    - rewrite (bodies_len_const _ 0 fs W4). unfold ddh_b0. lia. }
  exists f. split; [|split; [|split; [exact Gen|]]].
  - pose proof (Gen bm0 locb) as G. unfold aed_generateXSS in G. rewrite M in G. cbn [bind] in G.
    rewrite G in Hgen; [congruence|]. split; [exact Hlocb|]. rewrite Lf. lia.
  - split; intros; rewrite !Lf; [reflexivity|lia].
  - intros bm b v [Hb1 Hb2] Hc.
    destruct (rm_remake bm (ae_make bm) (ae_el bm) nbt int (map ae_value ds) fs Hint Hlv W3 W4) with (b := b) (v := v)
      as (o & _ & Mo & Vo & Emin & Emax & Re); auto.
    { intros E. destruct ds; [congruence|]. rewrite E, len_nil, len_cons in W6. nonneg. lia. }
    { clear - F Hvalid. intros f x k b w Hf Hx Hb1 Hb2 Hc.
      destruct (Forall2_nth _ _ _ _ _ F Hf) as (d & Hd & ws & Hw & ->).
      rewrite nth_error_map, Hd in Hx. injection Hx as <-.
      assert (Vd : ae_valid d) by (rewrite Forall_forall in Hvalid; apply Hvalid; eapply nth_error_In; exact Hd).
      destruct Vd as (Hi & Hv & _). apply (ae_el_has bm d ws b w); assumption. }
    exists o. split; [exact Mo|]. split; [exact Vo|]. split; [exact Emin|]. split; [exact Emax|].
    intros b' [B1 B2]. exact (Re b' B1 B2).
Qed.

(** ** Law 61 *)

Lemma ea_el_has bm d ws b w :
  tws (ea_dists d) ws -> 0 <= ea_interp d < 2 ^ 31 -> Forall tw_valid (ea_dists d) ->
  1 <= b -> b + len (ea_layout d ws b) <= 2 ^ 31 -> content w (ea_layout d ws b) ->
  exists o words, ea_make bm (ea_value d) b w = Ok o
    /\ ea_el bm o = Ok (ea_value d, words) /\ words_ok (ea_value d, words) (ea_layout d ws).
Proof.
  intros F Hi Hv Hb Hs Hc.
  destruct (ea_read_has d ws F Hi Hv b bm w content Hb Hs (content_has _ _ Hc)
              (fun w l C => C) content_has) as (o & G & Mo & Vo & So & Fo).
  { intros l1 l2 E. apply (sub_content_tail _ l1 l2); [|reflexivity]. rewrite <- E. exact Hc. }
  destruct (tw_reuse_ok _ _ Fo) as (ws' & F' & R). rewrite <- (tws_fun _ _ _ F F') in R.
  destruct So as (SI & _).
  exists (ea_value d, o). eexists. split; [unfold ea_make; rewrite Mo; reflexivity|].
  split; [unfold ea_el; cbn [fst]; reflexivity|].
  intros b' Hb1 Hb2. cbn [snd]. rewrite trunc_to_size_dbl by lia. cbn [bind].
  rewrite SI. cbn [bind]. rewrite R. cbn [bind].
  unfold ea_build. pose proof (ea_layout_len d ws b' (eq_sym (Forall2_len _ _ _ F))) as LL.
  rewrite (ea_gen_ok d ws F Hi b') by lia. cbn [bind].
  assert (Lm' : len (ea_layout d ws b') < max_words) by (unfold max_words; lia).
  pose proof (own_content _ Lm') as Hc'.
  destruct (ea_read_has d ws F Hi Hv b' bm (own (ea_layout d ws b')) content ltac:(lia) Hb2 (content_has _ _ Hc')
            (fun w l C => C) content_has) as (o' & G' & Mo' & Vo' & _).
  { intros l1 l2 E. apply (sub_content_tail _ l1 l2); [|reflexivity]. rewrite <- E. exact Hc'. }
  rewrite G'. cbn [bind]. rewrite Vo'. apply xss_all_own.
Qed.

Lemma ea_fs_fun ds fs fs' :
  Forall2 (fun d f => exists ws, tws (ea_dists d) ws /\ f = ea_layout d ws) ds fs ->
  Forall2 (fun d f => exists ws, tws (ea_dists d) ws /\ f = ea_layout d ws) ds fs' ->
  fs' = fs.
Proof.
  intros F; revert fs'; induction F as [|d f ds fs (ws & Hw & ->) F IH]; intros fs' F'; inversion F'; subst; [reflexivity|].
  f_equal; [|auto]. destruct H1 as (ws' & Hw' & ->). rewrite (tws_fun _ _ _ Hw Hw'). reflexivity.
Qed.

Lemma ead_fs bm0 nbt int locb ds l :
  ead_generateXSS bm0 nbt int locb ds = Ok l -> Forall ea_valid ds -> 1 <= locb -> locb + len l <= 2 ^ 31 ->
  exact nbt -> exact int -> ds <> [] ->
  exists f, f locb = l /\ word_fun f
  /\ (forall bm b, fits f b -> ead_generateXSS bm nbt int b ds = Ok (f b))
  /\ (forall bm b v, fits f b -> content v (f b) -> exists o, ead_make bm b v = Ok o /\ dd_v o = v
        /\ dd_emin bm o = Ok (hd (dbl 0) (map ea_value ds)) /\ dd_emax bm o = Ok (last (map ea_value ds) (dbl 0))
        /\ forall b', fits f b' -> ead_remake bm o b' = Ok (f b')).
Proof.
  intros Hgen Hvalid Hlocb Hsize Hen Hei Hne.
  destruct (ea_list bm0 ds Hvalid) as (es & fs & M & W5 & F & W1 & W2 & W3 & W4 & W6).
  unfold ead_generateXSS in Hgen. rewrite M in Hgen. cbn [bind] in Hgen.
  destruct (dd_generateXSS_len nbt int locb _ fs l 0 W2 W4 Hgen) as [Hint Hlen].
  set (f := rm_layout nbt int (map ea_value ds) fs).
  assert (Hlv : len (map ea_value ds) = len fs) by (rewrite len_map; lia).
  assert (Lf : forall b, len (f b) = 2 + 2 * len nbt + 2 * len fs + len (dd_bodies 0 fs)).
  { intros b. apply rm_layout_len; assumption. }
  pose proof (len_nonneg nbt); pose proof (len_nonneg fs); pose proof (len_nonneg (dd_bodies 0 fs)).
  assert (Gen : forall bm b, fits f b -> ead_generateXSS bm nbt int b ds = Ok (f b)).
  { intros bm b [Hb Hs]. rewrite Lf in Hs. unfold ead_generateXSS.
    destruct (ea_list bm ds Hvalid) as (es' & fs' & M' & W5' & F' & W1' & W2' & W3' & W4' & W6').
    pose proof (ea_fs_fun _ _ _ F F') as ->. rewrite M'. cbn [bind].
    rewrite (dd_generateXSS_ok nbt int b _ fs W1' W3 Hint ltac:(lia)).
    - rewrite W5'. reflexivity.
    - rewrite (bodies_len_const _ 0 fs W4). unfold ddh_b0. lia. }
  exists f. split; [|split; [|split; [exact Gen|]]].
  - pose proof (Gen bm0 locb) as G. unfold ead_generateXSS in G. rewrite M in G. cbn [bind] in G.
    rewrite G in Hgen; [congruence|]. split; [exact Hlocb|]. rewrite Lf. lia.
  - split; intros; rewrite !Lf; [reflexivity|lia].
  - intros bm b v [Hb1 Hb2] Hc.
    destruct (rm_remake bm (ea_make bm) (ea_el bm) nbt int (map ea_value ds) fs Hint Hlv W3 W4) with (b := b) (v := v)
      as (o & _ & Mo & Vo & Emin & Emax & Re); auto.
    { intros E. destruct ds; [congruence|]. rewrite E, len_nil, len_cons in W6. nonneg. lia. }
    { clear - F Hvalid. intros f x k b w Hf Hx Hb1 Hb2 Hc.
      destruct (Forall2_nth _ _ _ _ _ F Hf) as (d & Hd & ws & Hw & ->).
      rewrite nth_error_map, Hd in Hx. injection Hx as <-.
      assert (Vd : ea_valid d) by (rewrite Forall_forall in Hvalid; apply Hvalid; eapply nth_error_In; exact Hd).
      destruct Vd as (Hi & Hv & _). apply (ea_el_has bm d ws b w); assumption. }
    exists o. split; [exact Mo|]. split; [exact Vo|]. split; [exact Emin|]. split; [exact Emax|].
    intros b' [B1 B2]. exact (Re b' B1 B2).
Qed.
