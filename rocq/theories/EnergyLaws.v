(** The distributions of ACE laws 4, 44, 61 and 67: tabulated distributions for
    each incident energy, possibly nested. *)
From Coq Require Import ZArith Bool List Lia.
From Coq Require Import ZifyBool ZifyNat.
From Verif Require Export DistributionData.
Import ListNotations.
Open Scope Z_scope.

(** * TabulatedEnergyDistribution and TabulatedKalbachMannDistribution *)

(** Constructor arguments of
    src/ACEtk/continuous/TabulatedEnergyDistribution/src/ctor.hpp:19-29 ([tq_data] is
    empty) and src/ACEtk/continuous/TabulatedKalbachMannDistribution/src/ctor.hpp:21-33
    ([tq_data] is [ r; a ]).  [tq_value] is the incident energy (or cosine), kept
    outside the XSS data. *)
Record tq_in := TQ { tq_value : double; tq_interp : Z; tq_discrete : Z;
  tq_x : list double; tq_pdf : list double; tq_cdf : list double; tq_data : list (list double) }.

(** [discrete * 10 + interpolation] is computed as std::size_t and passed as int *)
Definition tq_words (d : tq_in) : outcome (list double) :=
  tp_generateXSS (s32 (u64 (tq_discrete d * 10 + tq_interp d))) (tq_x d) (tq_pdf d) (tq_cdf d) (tq_data d).

(** The constructed objects: value and XSS data.
    TabulatedEnergyDistribution/src/ctor.hpp:38-53,
    TabulatedKalbachMannDistribution/src/ctor.hpp:42-57; the locator is ignored. *)
Definition tq_obj : Type := (double * view)%type.
Definition tq_make bm (value : double) (locb : Z) (v : view) : outcome tq_obj :=
  w <- tp_make bm v ;; Ok (value, w).

(** src/ACEtk/continuous/TabulatedEnergyDistribution.hpp:48-62 and
    TabulatedKalbachMannDistribution.hpp:47-61: int % 10 converted to unsigned
    int; (int - unsigned int) / 10 *)
Definition tq_interpolation bm (o : tq_obj) : outcome Z :=
  n <- tp_interpolation bm (snd o) ;; Ok (u32 (Z.rem n 10)).
Definition tq_numberDiscrete bm (o : tq_obj) : outcome Z :=
  n <- tp_interpolation bm (snd o) ;; i <- tq_interpolation bm o ;; Ok (u32 (n - i) / 10).

(** A distribution with its value and its words, whatever the locator. *)
Definition tq_elem (d : tq_in) : outcome dd_elem :=
  w <- tq_words d ;; Ok (tq_value d, fun _ => Ok w).

(** ** Specification *)

(** The interpolation flag and number of discrete lines share one word. *)
Definition tq_valid (d : tq_in) : Prop :=
  0 <= tq_interp d < 10 /\ 0 <= tq_discrete d /\ 10 * tq_discrete d + tq_interp d < 2 ^ 31.

Definition tq_shows bm (o : tq_obj) (d : tq_in) : Prop :=
  fst o = tq_value d /\ tq_interpolation bm o = Ok (tq_interp d)
  /\ tq_numberDiscrete bm o = Ok (tq_discrete d)
  /\ tp_numberValues bm (snd o) = Ok (len (tq_x d))
  /\ tp_values bm (snd o) = Ok (tq_x d) /\ tp_pdf bm (snd o) = Ok (tq_pdf d)
  /\ tp_cdf bm (snd o) = Ok (tq_cdf d)
  /\ forall k c, nth_error (tq_data d) k = Some c -> tp_column bm (snd o) (Z.of_nat k) = Ok c.

Lemma tq_has bm d l b w : tq_words d = Ok l -> tq_valid d -> has w l ->
  tq_make bm (tq_value d) b w = Ok (tq_value d, w) /\ tq_shows bm (tq_value d, w) d.
Proof.
  intros Hl (Hi & Hd & Hw) H. unfold tq_words in Hl.
  rewrite u64_small, s32_small in Hl by lia.
  apply tp_generateXSS_inv in Hl as [A ->].
  destruct (tp_has bm w (tq_discrete d * 10 + tq_interp d) _ _ _ _ A ltac:(lia) H) as (M & S1 & S2 & S3 & S4 & S5 & S6).
  split; [unfold tq_make; rewrite M; reflexivity|].
  split; [reflexivity|].
  assert (I : tq_interpolation bm (tq_value d, w) = Ok (tq_interp d)).
  { unfold tq_interpolation. cbn [snd]. rewrite S1. cbn [bind].
    rewrite Z.add_comm, Z.rem_add by lia. rewrite Z.rem_small by lia. rewrite u32_small by lia. reflexivity. }
  split; [exact I|]. split.
  { unfold tq_numberDiscrete. rewrite I. cbn [snd]. rewrite S1. cbn [bind].
    rewrite u32_small by lia. f_equal.
    replace (tq_discrete d * 10 + tq_interp d - tq_interp d) with (tq_discrete d * 10) by lia.
    apply Z.div_mul. lia. }
  cbn [snd]. auto 10.
Qed.

Lemma tq_words_pos d l : tq_words d = Ok l -> 2 <= len l.
Proof.
  intros H. apply tp_generateXSS_inv in H as [_ ->]. unfold tp_layout, cd_layout.
  rewrite !len_cons. nonneg. lia.
Qed.

(** * Lengths of what the generators write *)

Definition const (l : list double) : Z -> list double := fun _ => l.

(** The words of an element always have the length of the specification. *)
Definition words_len (e : dd_elem) (f : Z -> list double) : Prop :=
  forall x w b, snd e x = Ok w -> len w = len (f b).

Lemma upd_len {A} k x (l r : list A) : upd k x l = Ok r -> len r = len l.
Proof.
  revert k r; induction l as [|a l IH]; intros [|k] r H; cbn in H; try discriminate.
  - injection H as <-. slen. reflexivity.
  - destruct (upd k x l) as [r'| |] eqn:E; try discriminate. cbn in H. injection H as <-.
    apply IH in E. slen. lia.
Qed.

Lemma dd_bodies_len es fs b b' : Forall2 words_len es fs ->
  Forall (fun f => forall b b', len (f b) = len (f b')) fs ->
  len (dd_bodies b fs) = len (dd_bodies b' fs).
Proof.
  intros HF HC. revert b b'. clear HF. induction HC as [|f fs Hf HC IH]; intros b b'; [reflexivity|].
  cbn [dd_bodies]. rewrite !len_app. rewrite (IH (b + len (f b)) (b' + len (f b'))), (Hf b b'). reflexivity.
Qed.

Lemma dd_append_len ne offset index es fs xss l b :
  Forall2 words_len es fs -> Forall (fun f => forall b b', len (f b) = len (f b')) fs ->
  dd_append ne offset index es xss = Ok l -> len l = len xss + len (dd_bodies b fs).
Proof.
  intros HF. revert index xss b. induction HF as [|[e w] f es fs Hw HF IH]; intros index xss b HC H.
  - cbn [dd_append dd_bodies] in *. injection H as <-. rewrite len_nil. lia.
  - inversion HC as [|? ? Hf HC']; subst x l0. cbn [dd_append] in H.
    destruct (upd index e xss) as [x1| |] eqn:E1; try discriminate. cbn [bind] in H.
    destruct (upd (index + ne) _ x1) as [x2| |] eqn:E2; try discriminate. cbn [bind] in H.
    destruct (w _) as [body| |] eqn:E3; try discriminate. cbn [bind] in H.
    apply (IH _ _ (b + len (f b))) in H; [|exact HC']. cbn [dd_bodies].
    apply upd_len in E1, E2. rewrite !len_app in *. pose proof (Hw _ _ b E3). lia.
Qed.

Lemma dd_generateXSS_len nbt int locb es fs l b :
  Forall2 words_len es fs -> Forall (fun f => forall b b', len (f b) = len (f b')) fs ->
  dd_generateXSS nbt int locb es = Ok l ->
  len int = len nbt /\ len l = 2 + 2 * len nbt + 2 * len fs + len (dd_bodies b fs).
Proof.
  intros HF HC H. unfold dd_generateXSS in H. cbn [Nat.add repeat upd bind] in H.
  destruct (dd_append _ _ _ _ _) as [x| |] eqn:E; try discriminate. cbn [bind] in H.
  destruct (id_generateXSS nbt int) as [i| |] eqn:Ei; try discriminate. cbn [bind] in H. injection H as <-.
  apply id_generateXSS_inv in Ei as [Hi ->]. split; [exact Hi|].
  apply (dd_append_len _ _ _ _ fs _ _ b HF HC) in E.
  rewrite len_app, (len_id_layout nbt int Hi), E, len_cons, len_repeat.
  assert (L : length es = length fs) by (rewrite (Forall2_len _ _ _ HF); reflexivity).
  unfold len. rewrite L. lia.
Qed.

Lemma di_generateXSS_len interp locb es fs l b :
  Forall2 words_len es fs -> Forall (fun f => forall b b', len (f b) = len (f b')) fs ->
  di_generateXSS interp locb es = Ok l ->
  len l = 2 + 2 * len fs + len (dd_bodies b fs).
Proof.
  intros HF HC H. unfold di_generateXSS in H. cbn [Nat.add repeat upd bind] in H.
  destruct (dd_append _ _ _ _ _) as [x| |] eqn:E; try discriminate. cbn [bind] in H. injection H as <-.
  apply (dd_append_len _ _ _ _ fs _ _ b HF HC) in E.
  rewrite len_cons, E, len_cons, len_repeat.
  assert (L : length es = length fs) by (rewrite (Forall2_len _ _ _ HF); reflexivity).
  unfold len. rewrite L. lia.
Qed.

Lemma mapM_Forall2 {A B} (f : A -> outcome B) l r :
  mapM f l = Ok r -> Forall2 (fun a b => f a = Ok b) l r.
Proof.
  revert r; induction l as [|a l IH]; intros r H; cbn in H.
  - injection H as <-. constructor.
  - destruct (f a) as [b| |] eqn:E; try discriminate. cbn in H.
    destruct (mapM f l) as [bs| |] eqn:E2; try discriminate. cbn in H. injection H as <-.
    constructor; auto.
Qed.
Lemma Forall2_mapM {A B} (f : A -> outcome B) l r :
  Forall2 (fun a b => f a = Ok b) l r -> mapM f l = Ok r.
Proof.
  induction 1 as [|a b l r H F IH]; [reflexivity|]. cbn. rewrite H. cbn. rewrite IH. reflexivity.
Qed.

(** * Laws 4 and 44: OutgoingEnergyDistributionData, KalbachMannDistributionData *)

(** src/ACEtk/continuous/OutgoingEnergyDistributionData/src/ctor.hpp:17-24 and
    KalbachMannDistributionData/src/ctor.hpp:17-24: the distributions are
    constructed, then written by the base class. *)
Definition og_generateXSS (nbt int : list Z) (locb : Z) (ds : list tq_in) : outcome (list double) :=
  es <- mapM tq_elem ds ;; dd_generateXSS nbt int locb es.
Definition og_of bm (nbt int : list Z) (ds : list tq_in) (locb : Z) : outcome (distributionData tq_obj) :=
  es <- mapM tq_elem ds ;; dd_of bm (tq_make bm) nbt int es locb.
(** ctor.hpp:44-45 *)
Definition og_make bm (locb : Z) (v : view) : outcome (distributionData tq_obj) :=
  dd_make bm (tq_make bm) locb v.

(** All that a user sees of such data: interpolation data, incident energies,
    locators and distributions. *)
Definition og_shows bm (locb : Z) (l : list double) (o : distributionData tq_obj)
    (nbt int : list Z) (ds : list tq_in) : Prop :=
  dd_NB bm o = Ok (len nbt) /\ dd_NBT bm o = Ok (map dbl nbt) /\ dd_INT bm o = Ok (map dbl int)
  /\ dd_N bm o = Ok (len ds) /\ dd_energies bm o = Ok (map tq_value ds)
  /\ (forall k d, nth_error ds k = Some d ->
        dd_energy bm o (Z.of_nat k + 1) = Ok (tq_value d)
        /\ (exists t, dd_datum bm o (Z.of_nat k + 1) = Ok t /\ tq_shows bm t d)
        /\ exists before w after,
             l = before ++ w ++ after /\ tq_words d = Ok w
             /\ dd_rel bm o (Z.of_nat k + 1) = Ok (len before + 1)
             /\ dd_locator bm o (Z.of_nat k + 1) = Ok (len before + locb))
  /\ (debug bm = true -> forall i, u64 i < 1 \/ len ds < u64 i -> dd_datum bm o i = Throw OutOfRange).

Section OG.
  Variables (nbt int : list Z) (locb : Z) (ds : list tq_in) (l : list double).
  Hypothesis Hgen : og_generateXSS nbt int locb ds = Ok l.
  Hypothesis Hvalid : Forall tq_valid ds.
  Hypothesis Hlocb : 1 <= locb.
  Hypothesis Hsize : locb + len l <= 2 ^ 31.

  Lemma og_words_list : exists ws, Forall2 (fun d w => tq_words d = Ok w) ds ws
    /\ mapM tq_elem ds = Ok (map (fun dw => (tq_value (fst dw), fun _ => Ok (snd dw))) (combine ds ws)).
  Proof.
    clear Hvalid Hsize Hlocb. unfold og_generateXSS in Hgen.
    destruct (mapM tq_elem ds) as [es| |] eqn:E; try discriminate. clear Hgen.
    revert es E. induction ds as [|d r IH]; intros es E.
    - exists []. split; [constructor|]. injection E as <-. reflexivity.
    - cbn [mapM] in E. unfold tq_elem at 1 in E. destruct (tq_words d) as [w| |] eqn:Ew; try discriminate.
      cbn [bind] in E. destruct (mapM tq_elem r) as [es'| |] eqn:E'; try discriminate. cbn [bind] in E.
      injection E as <-. destruct (IH es' eq_refl) as (ws & F & M).
      exists (w :: ws). split; [constructor; assumption|]. cbn [combine map fst snd mapM].
      injection M as M. rewrite M. reflexivity.
  Qed.
End OG.

Definition tq_es (ds : list tq_in) (ws : list (list double)) : list dd_elem :=
  map (fun dw => (tq_value (fst dw), fun _ => Ok (snd dw))) (combine ds ws).

Lemma tq_es_spec ds ws : Forall2 (fun d w => tq_words d = Ok w) ds ws ->
  Forall2 words_ok (tq_es ds ws) (map const ws) /\ Forall2 words_len (tq_es ds ws) (map const ws)
  /\ Forall (fun f => forall b, 0 < len (f b)) (map const ws)
  /\ Forall (fun f => forall b b', len (f b) = len (f b')) (map const ws)
  /\ map fst (tq_es ds ws) = map tq_value ds /\ len (map const ws) = len ds.
Proof.
  unfold tq_es. induction 1 as [|d w ds ws H F IH]; [repeat split; constructor|].
  destruct IH as (I1 & I2 & I3 & I4 & I5 & I6). cbn [combine map fst snd].
  repeat split.
  - constructor; [|exact I1]. intros b Hb1 Hb2. reflexivity.
  - constructor; [|exact I2]. intros x w' b Hx. cbn in Hx. injection Hx as <-. reflexivity.
  - constructor; [|exact I3]. intros b. unfold const. pose proof (tq_words_pos _ _ H). lia.
  - constructor; [|exact I4]. reflexivity.
  - cbn [map fst]. f_equal. exact I5.
  - rewrite !len_cons. lia.
Qed.

Lemma og_round_trip nbt int locb ds l :
  og_generateXSS nbt int locb ds = Ok l -> Forall tq_valid ds -> 1 <= locb -> locb + len l <= 2 ^ 31 ->
  (forall bm v, has v l -> exists o, og_make bm locb v = Ok o /\ og_shows bm locb l o nbt int ds)
  /\ (forall bm v, content v l -> exists o, og_make bm locb v = Ok o
        /\ forall k d, nth_error ds k = Some d -> exists t w,
             dd_datum bm o (Z.of_nat k + 1) = Ok t /\ tq_words d = Ok w /\ xss_all (snd t) = Ok w)
  /\ (forall bm, og_of bm nbt int ds locb = og_make bm locb (own l)).
Proof.
  intros Hgen Hvalid Hlocb Hsize.
  destruct (og_words_list nbt int locb ds l Hgen) as (ws & F & M).
  unfold og_generateXSS in Hgen. rewrite M in Hgen. cbn [bind] in Hgen. fold (tq_es ds ws) in M, Hgen.
  destruct (tq_es_spec ds ws F) as (W1 & W2 & W3 & W4 & W5 & W6).
  set (fs := map const ws) in *.
  set (b0 := ddh_b0 nbt locb fs).
  destruct (dd_generateXSS_len nbt int locb _ fs l b0 W2 W4 Hgen) as [Hint Hlen].
  assert (Hs : b0 + len (dd_bodies b0 fs) <= 2 ^ 31) by (unfold b0, ddh_b0 in *; lia).
  assert (El : l = dd_layout (id_layout nbt int) locb [map tq_value ds] fs).
  { rewrite (dd_generateXSS_ok nbt int locb _ fs W1 W3 Hint ltac:(lia) Hs), W5 in Hgen. congruence. }
  assert (Hlv : len (map tq_value ds) = len fs) by (rewrite len_map; lia).
  assert (Hws : forall pre f post x, fs = pre ++ f :: post -> nth_error (map tq_value ds) (length pre) = Some x ->
            exists d w, nth_error ds (length pre) = Some d /\ x = tq_value d /\ tq_words d = Ok w /\ f = const w).
  { intros pre f post x E Hx.
    assert (Hf : nth_error fs (length pre) = Some f) by (rewrite E; apply nth_error_mid).
    unfold fs in Hf. rewrite nth_error_map in Hf, Hx.
    destruct (nth_error ws (length pre)) as [w|] eqn:Ew; [|discriminate].
    destruct (nth_error ds (length pre)) as [d|] eqn:Ed; [|discriminate].
    cbn in Hf, Hx. injection Hf as <-. injection Hx as <-. exists d, w.
    destruct (Forall2_nth _ _ _ _ _ F Ew) as (d' & Hd' & Hw'). rewrite Ed in Hd'. injection Hd' as <-. auto. }
  assert (KF : forall k d, nth_error ds k = Some d -> exists pre w post,
      fs = pre ++ const w :: post /\ length pre = k /\ tq_words d = Ok w).
  { intros k d Hk.
    assert (Lk : length ds = length ws) by exact (Forall2_len _ _ _ F).
    destruct (nth_error ws k) as [w|] eqn:Ew.
    2: { apply nth_error_None in Ew. assert (k < length ds)%nat by (apply nth_error_Some; congruence). lia. }
    destruct (Forall2_nth _ _ _ _ _ F Ew) as (d' & Hd' & Hw'). rewrite Hk in Hd'. injection Hd' as <-.
    assert (Hf : nth_error fs k = Some (const w)) by (unfold fs; rewrite nth_error_map, Ew; reflexivity).
    destruct (nth_split_len _ _ _ Hf) as (pre & post & E & Lp). exists pre, w, post. auto. }
  assert (HD : forall k d, nth_error ds k = Some d -> (k < length fs)%nat).
  { intros k d Hk. apply nth_error_len in Hk. unfold len in *. lia. }
  split; [|split].
  - intros bm v Hv. rewrite El in Hv.
    destruct (ddh_blocks bm v nbt int locb (map tq_value ds) fs Hint Hlv Hv Hlocb W3 Hs (tq_make bm)
       (fun k t => exists d, nth_error ds k = Some d /\ tq_shows bm t d) has)
       as (o & _ & Mo & Vo & Lo & So & _).
    + intros w l0 C; apply content_has; exact C.
    + intros l1 l2 E. apply (sub_has_tail v l1 l2); [rewrite <- E; exact Hv|reflexivity].
    + intros pre f post x w E Hx Hw.
      destruct (Hws pre f post x E Hx) as (d & ww & Hd & -> & Hww & ->). unfold const in Hw.
      assert (Vd : tq_valid d) by (rewrite Forall_forall in Hvalid; apply Hvalid; eapply nth_error_In; exact Hd).
      destruct (tq_has bm d ww (b0 + len (dd_bodies b0 pre)) w Hww Vd Hw) as [T1 T2].
      exists (tq_value d, w). split; [exact T1|]. exists d. auto.
    + exists o. split; [exact Mo|].
      destruct So as (S1 & S2 & S3 & S4 & S5 & S6 & S7 & S8 & S9).
      split; [exact S1|]. split; [exact S2|]. split; [exact S3|].
      split; [rewrite <- W6; exact S4|]. split; [exact S5|]. split; [|rewrite <- W6; exact S9].
      intros k d Hk. split; [|split].
      * apply S6. rewrite nth_error_map, Hk. reflexivity.
      * destruct (S8 k (HD _ _ Hk)) as (t & Ht & d' & Hd' & Hs'). exists t. split; [exact Ht|]. congruence.
      * destruct (KF k d Hk) as (pre & w & post & E & Lp & Hw).
        destruct (dd_split (id_layout nbt int) locb [map tq_value ds] fs ltac:(repeat constructor; exact Hlv) pre _ post E)
          as (Q1 & Q2 & Q3 & Q4).
        rewrite ddh_b0_eq in Q1, Q2 by assumption. fold b0 in Q1, Q2.
        eexists _, w, _. split; [rewrite El; exact Q1|]. split; [exact Hw|].
        rewrite Q2. rewrite (len_id_layout nbt int Hint). change (dd_nc [map tq_value ds]) with 2.
        destruct (S7 pre _ post E) as [R1 R2].
        assert (Ek : Z.of_nat k + 1 = len pre + 1) by (unfold len; lia). rewrite Ek. fold b0 in R1, R2.
        split; [rewrite R2|rewrite R1]; f_equal; unfold b0 at 1, ddh_b0; lia.
  - intros bm v Hc. rewrite El in Hc. pose proof (content_has _ _ Hc) as Hv.
    destruct (ddh_blocks bm v nbt int locb (map tq_value ds) fs Hint Hlv Hv Hlocb W3 Hs (tq_make bm)
       (fun k t => exists d w, nth_error ds k = Some d /\ tq_words d = Ok w /\ xss_all (snd t) = Ok w) content)
       as (o & _ & Mo & Vo & Lo & So & _).
    + auto.
    + intros l1 l2 E. apply (sub_content_tail v l1 l2); [rewrite <- E; exact Hc|reflexivity].
    + intros pre f post x w E Hx Hw.
      destruct (Hws pre f post x E Hx) as (d & ww & Hd & -> & Hww & ->). unfold const in Hw.
      assert (Vd : tq_valid d) by (rewrite Forall_forall in Hvalid; apply Hvalid; eapply nth_error_In; exact Hd).
      destruct (tq_has bm d ww (b0 + len (dd_bodies b0 pre)) w Hww Vd (content_has _ _ Hw)) as [T1 T2].
      exists (tq_value d, w). split; [exact T1|]. exists d, ww. split; [exact Hd|]. split; [exact Hww|].
      apply xss_all_content. exact Hw.
    + exists o. split; [exact Mo|]. intros k d Hk.
      destruct So as (_ & _ & _ & _ & _ & _ & _ & S8 & _).
      destruct (S8 k (HD _ _ Hk)) as (t & Ht & d' & w & Hd' & Hw & Hx).
      exists t, w. split; [exact Ht|]. split; [congruence|exact Hx].
  - intros bm. unfold og_of. rewrite M. cbn [bind]. unfold dd_of. rewrite Hgen. cbn [bind].
    assert (Lm : len l < max_words) by (unfold max_words; lia).
    pose proof (content_has _ _ (own_content l Lm)) as Hv. rewrite El in Hv at 2.
    destruct (ddh_blocks bm (own l) nbt int locb (map tq_value ds) fs Hint Hlv Hv Hlocb W3 Hs (tq_make bm)
       (fun k t => True) has)
       as (o & G & Mo & Vo & Lo & So & _).
    + intros w l0 C; apply content_has; exact C.
    + intros l1 l2 E. apply (sub_has_tail _ l1 l2); [rewrite <- E; exact Hv|reflexivity].
    + intros pre f post x w E Hx Hw.
      destruct (Hws pre f post x E Hx) as (d & ww & Hd & -> & Hww & ->). unfold const in Hw.
      assert (Vd : tq_valid d) by (rewrite Forall_forall in Hvalid; apply Hvalid; eapply nth_error_In; exact Hd).
      destruct (tq_has bm d ww (b0 + len (dd_bodies b0 pre)) w Hww Vd Hw) as [T1 T2].
      exists (tq_value d, w). split; [exact T1|exact I].
    + unfold og_make. rewrite G, Mo. reflexivity.
Qed.

(** * TabulatedAngleEnergyDistribution: energy distributions for each cosine *)

(** Constructor arguments of
    src/ACEtk/continuous/TabulatedAngleEnergyDistribution/src/ctor.hpp:17-25;
    the distributions are TabulatedEnergyDistribution with the cosine as value.
    [interpolation] is an int passed as unsigned int. *)
Record ae_in := AE { ae_value : double; ae_interp : Z; ae_locb : Z; ae_dists : list tq_in }.

Definition ae_generateXSS (d : ae_in) (locb : Z) : outcome (list double) :=
  es <- mapM tq_elem (ae_dists d) ;; di_generateXSS (ae_interp d) locb es.
Definition ae_of bm (d : ae_in) (locb : Z) : outcome (distributionDataI tq_obj) :=
  es <- mapM tq_elem (ae_dists d) ;; di_of bm (tq_make bm) (ae_interp d) es locb.
(** ctor.hpp:35-39 *)
Definition ae_obj : Type := (double * distributionDataI tq_obj)%type.
Definition ae_make bm (value : double) (locb : Z) (v : view) : outcome ae_obj :=
  o <- di_make bm (tq_make bm) locb v ;; Ok (value, o).

Definition ae_shows bm (locb : Z) (l : list double) (o : distributionDataI tq_obj) (d : ae_in) : Prop :=
  di_interpolation bm o = Ok (ae_interp d) /\ di_N bm o = Ok (len (ae_dists d))
  /\ di_column bm o 1 = Ok (map tq_value (ae_dists d))
  /\ (forall k t, nth_error (ae_dists d) k = Some t ->
        di_value bm o 1 (Z.of_nat k + 1) = Ok (tq_value t)
        /\ (exists u, di_datum bm o (Z.of_nat k + 1) = Ok u /\ tq_shows bm u t)
        /\ exists before w after,
             l = before ++ w ++ after /\ tq_words t = Ok w
             /\ di_rel bm o (Z.of_nat k + 1) = Ok (len before + 1))
  /\ (debug bm = true -> forall i, u64 i < 1 \/ len (ae_dists d) < u64 i -> di_datum bm o i = Throw OutOfRange).

Lemma tq_words_list ds es : mapM tq_elem ds = Ok es ->
  exists ws, Forall2 (fun d w => tq_words d = Ok w) ds ws /\ es = tq_es ds ws.
Proof.
  revert es. induction ds as [|d r IH]; intros es E.
  - exists []. split; [constructor|]. injection E as <-. reflexivity.
  - cbn [mapM] in E. unfold tq_elem at 1 in E. destruct (tq_words d) as [w| |] eqn:Ew; try discriminate.
    cbn [bind] in E. destruct (mapM tq_elem r) as [es'| |] eqn:E'; try discriminate. cbn [bind] in E.
    injection E as <-. destruct (IH es' eq_refl) as (ws & F & M).
    exists (w :: ws). split; [constructor; assumption|]. unfold tq_es. cbn [combine map fst snd].
    rewrite M. reflexivity.
Qed.

Lemma tq_at_pre ds ws pre f post x :
  Forall2 (fun d w => tq_words d = Ok w) ds ws ->
  map const ws = pre ++ f :: post -> nth_error (map tq_value ds) (length pre) = Some x ->
  exists d w, nth_error ds (length pre) = Some d /\ x = tq_value d /\ tq_words d = Ok w /\ f = const w.
Proof.
  intros F E Hx.
  assert (Hf : nth_error (map const ws) (length pre) = Some f) by (rewrite E; apply nth_error_mid).
  rewrite nth_error_map in Hf, Hx.
  destruct (nth_error ws (length pre)) as [w|] eqn:Ew; [|discriminate].
  destruct (nth_error ds (length pre)) as [d|] eqn:Ed; [|discriminate].
  cbn in Hf, Hx. injection Hf as <-. injection Hx as <-. exists d, w.
  destruct (Forall2_nth _ _ _ _ _ F Ew) as (d' & Hd' & Hw'). rewrite Ed in Hd'. injection Hd' as <-. auto.
Qed.

Lemma tq_at_k ds ws k d :
  Forall2 (fun d w => tq_words d = Ok w) ds ws -> nth_error ds k = Some d ->
  exists pre w post, map const ws = pre ++ const w :: post /\ length pre = k /\ tq_words d = Ok w.
Proof.
  intros F Hk.
  assert (Lk : length ds = length ws) by exact (Forall2_len _ _ _ F).
  destruct (nth_error ws k) as [w|] eqn:Ew.
  2: { apply nth_error_None in Ew. assert (k < length ds)%nat by (apply nth_error_Some; congruence). lia. }
  destruct (Forall2_nth _ _ _ _ _ F Ew) as (d' & Hd' & Hw'). rewrite Hk in Hd'. injection Hd' as <-.
  assert (Hf : nth_error (map const ws) k = Some (const w)) by (rewrite nth_error_map, Ew; reflexivity).
  destruct (nth_split_len _ _ _ Hf) as (pre & post & E & Lp). exists pre, w, post. auto.
Qed.

(** The words of such a distribution at locator [b]. *)
Definition ae_layout (d : ae_in) (ws : list (list double)) (b : Z) : list double :=
  dd_layout [dbl (ae_interp d)] b [map tq_value (ae_dists d)] (map const ws).

Lemma len_bodies_const b ws : len (dd_bodies b (map const ws)) = len (concat ws).
Proof.
  revert b; induction ws as [|w ws IH]; intros b; cbn [map dd_bodies concat]; [reflexivity|].
  rewrite !len_app, IH. reflexivity.
Qed.

Lemma ae_layout_len d ws b : length ws = length (ae_dists d) ->
  len (ae_layout d ws b) = 2 + 2 * len ws + len (concat ws).
Proof.
  intros L. unfold ae_layout. rewrite len_dd_layout.
  - rewrite len_bodies_const, len_map. change (len [dbl (ae_interp d)]) with 1.
    change (len [map tq_value (ae_dists d)]) with 1. lia.
  - repeat constructor. rewrite !len_map. unfold len. congruence.
Qed.

Section AE.
  Variables (d : ae_in) (ws : list (list double)).
  Hypothesis F : Forall2 (fun d w => tq_words d = Ok w) (ae_dists d) ws.
  Hypothesis Hi : 0 <= ae_interp d < 2 ^ 31.
  Hypothesis Hvalid : Forall tq_valid (ae_dists d).

  Lemma ae_gen_ok locb : 1 <= locb -> locb + len (ae_layout d ws locb) <= 2 ^ 31 ->
    di_generateXSS (ae_interp d) locb (tq_es (ae_dists d) ws) = Ok (ae_layout d ws locb).
  Proof.
    intros Hb Hs. destruct (tq_es_spec _ ws F) as (W1 & W2 & W3 & W4 & W5 & W6).
    rewrite (di_generateXSS_ok _ locb _ (map const ws) W1 W3 Hi ltac:(lia)).
    - rewrite W5. reflexivity.
    - rewrite ae_layout_len in Hs by (symmetry; exact (Forall2_len _ _ _ F)).
      rewrite len_bodies_const. unfold dih_b0. rewrite len_map. lia.
  Qed.

  Lemma ae_read_has locb bm v (P : view -> list double -> Prop) :
    1 <= locb -> locb + len (ae_layout d ws locb) <= 2 ^ 31 -> has v (ae_layout d ws locb) ->
    (forall w l, content w l -> P w l) -> (forall w l, P w l -> has w l) ->
    (forall l1 l2, ae_layout d ws locb = l1 ++ l2 -> P (sub v (vbeg v + len l1) (vend v)) l2) ->
    exists o, di_generateBlocks bm (tq_make bm) locb v = Ok o /\ di_make bm (tq_make bm) locb v = Ok o
      /\ di_v o = v /\ ae_shows bm locb (ae_layout d ws locb) o d
      /\ Forall2 (fun t u => fst u = tq_value t /\ exists w, tq_words t = Ok w /\ P (snd u) w) (ae_dists d) (di_dists o).
  Proof.
    intros Hb Hs Hv HP HPh HPl.
    destruct (tq_es_spec _ ws F) as (W1 & W2 & W3 & W4 & W5 & W6).
    pose proof (Forall2_len _ _ _ F) as LF.
    rewrite ae_layout_len in Hs by (symmetry; exact LF).
    set (b0 := dih_b0 locb (map const ws)).
    assert (Hs' : b0 + len (dd_bodies b0 (map const ws)) <= 2 ^ 31).
    { rewrite len_bodies_const. unfold b0, dih_b0. rewrite len_map. lia. }
    assert (Hlv : len (map tq_value (ae_dists d)) = len (map const ws)) by (rewrite len_map; lia).
    destruct (dih_blocks bm v (ae_interp d) locb (map tq_value (ae_dists d)) (map const ws) Hlv Hi Hv Hb W3 Hs' (tq_make bm)
       (fun k u => exists t w, nth_error (ae_dists d) k = Some t /\ tq_shows bm u t /\ fst u = tq_value t
           /\ tq_words t = Ok w /\ P (snd u) w) P HP HPl)
       as (o & G & M & Vo & Lo & So & L & R).
    { intros pre f post x w E Hx Hw.
      destruct (tq_at_pre _ ws pre f post x F E Hx) as (t & ww & Ht & -> & Hww & ->). unfold const in Hw.
      assert (Vd : tq_valid t) by (rewrite Forall_forall in Hvalid; apply Hvalid; eapply nth_error_In; exact Ht).
      destruct (tq_has bm t ww (dih_b0 locb (map const ws) + len (dd_bodies (dih_b0 locb (map const ws)) pre)) w Hww Vd (HPh _ _ Hw)) as [T1 T2].
      exists (tq_value t, w). split; [exact T1|]. exists t, ww. auto. }
    exists o. split; [exact G|]. split; [exact M|]. split; [exact Vo|].
    destruct So as (S1 & S2 & S3 & S4 & S5 & S6 & S7).
    assert (HD : forall k t, nth_error (ae_dists d) k = Some t -> (k < length (map const ws))%nat).
    { intros k t Hk. apply nth_error_len in Hk. unfold len in *. lia. }
    split.
    - split; [exact S1|]. split; [rewrite <- W6; exact S2|]. split; [exact S3|].
      split; [|rewrite <- W6; exact S7].
      intros k t Hk. split; [|split].
      + apply S4. rewrite nth_error_map, Hk. reflexivity.
      + destruct (S6 k (HD _ _ Hk)) as (u & Hu & t' & w & Ht' & Hs1 & _). exists u. split; [exact Hu|]. congruence.
      + destruct (tq_at_k _ ws k t F Hk) as (pre & w & post & E & Lp & Hw).
        destruct (dd_split [dbl (ae_interp d)] locb [map tq_value (ae_dists d)] (map const ws)
                    ltac:(repeat constructor; exact Hlv) pre _ post E) as (Q1 & Q2 & Q3 & Q4).
        rewrite dih_b0_eq in Q1, Q2. fold b0 in Q1, Q2.
        eexists _, w, _. split; [exact Q1|]. split; [exact Hw|].
        rewrite Q2. change (len [dbl (ae_interp d)]) with 1. change (dd_nc [map tq_value (ae_dists d)]) with 2.
        pose proof (S5 pre _ post E) as R2.
        assert (Ek : Z.of_nat k + 1 = len pre + 1) by (unfold len; lia). rewrite Ek. fold b0 in R2.
        rewrite R2; f_equal; unfold b0 at 1, dih_b0; lia.
    - assert (Lk : length (ae_dists d) = length (di_dists o)) by (rewrite L, map_length; exact LF).
      clear - R Lk. revert R. generalize (di_dists o) Lk. generalize (ae_dists d).
      induction l as [|t l IH]; intros [|u us] Lk' R; try discriminate; constructor.
      + destruct (R 0%nat u eq_refl) as (t' & w & Ht & _ & Hf & Hw & Hp). injection Ht as <-. eauto.
      + apply IH; [cbn in Lk'; lia|]. intros k d' Hk. exact (R (S k) d' Hk).
  Qed.
End AE.

(** * Law 67: AngleEnergyDistributionData *)

(** A constructed TabulatedAngleEnergyDistribution as an element:
    src/ACEtk/continuous/AngleEnergyDistributionData/src/generateXSS.hpp:23-29
    rebuilds it with the stored locator (a double converted to std::size_t). *)
Definition tq_reuse (ts : list tq_obj) : outcome (list dd_elem) :=
  mapM (fun t => l <- xss_all (snd t) ;; Ok (fst t, fun _ : double => Ok l)) ts.
Definition ae_elem bm (d : ae_in) : outcome dd_elem :=
  o <- ae_of bm d (ae_locb d) ;;
  Ok (ae_value d, fun x =>
    locb <- trunc_to_size x ;;
    i <- di_interpolation bm o ;;
    es <- tq_reuse (di_dists o) ;;
    temp <- di_of bm (tq_make bm) i es locb ;;
    xss_all (di_v temp)).

(** AngleEnergyDistributionData/src/ctor.hpp:17-24, 44-45 *)
Definition aed_generateXSS bm (nbt int : list Z) (locb : Z) (ds : list ae_in) : outcome (list double) :=
  es <- mapM (ae_elem bm) ds ;; dd_generateXSS nbt int locb es.
Definition aed_of bm (nbt int : list Z) (ds : list ae_in) (locb : Z) : outcome (distributionData ae_obj) :=
  es <- mapM (ae_elem bm) ds ;; dd_of bm (ae_make bm) nbt int es locb.
Definition aed_make bm (locb : Z) (v : view) : outcome (distributionData ae_obj) :=
  dd_make bm (ae_make bm) locb v.

(** The distributions can be constructed, with the locator base the user chose. *)
Definition ae_valid (d : ae_in) : Prop :=
  0 <= ae_interp d < 2 ^ 31 /\ Forall tq_valid (ae_dists d) /\ 1 <= ae_locb d
  /\ exists l, ae_generateXSS d (ae_locb d) = Ok l /\ ae_locb d + len l <= 2 ^ 31.

Lemma ae_valid_words d : ae_valid d -> exists ws,
  Forall2 (fun d w => tq_words d = Ok w) (ae_dists d) ws
  /\ mapM tq_elem (ae_dists d) = Ok (tq_es (ae_dists d) ws)
  /\ forall b, len (ae_layout d ws b) = 2 + 2 * len ws + len (concat ws)
     /\ ae_locb d + len (ae_layout d ws b) <= 2 ^ 31.
Proof.
  intros (Hi & Hv & Hb & l & Hg & Hs). unfold ae_generateXSS in Hg.
  destruct (mapM tq_elem (ae_dists d)) as [es| |] eqn:E; try discriminate. cbn [bind] in Hg.
  destruct (tq_words_list _ _ E) as (ws & F & ->). exists ws. split; [exact F|]. split; [reflexivity|].
  intros b. rewrite ae_layout_len by (symmetry; exact (Forall2_len _ _ _ F)). split; [reflexivity|].
  destruct (tq_es_spec _ ws F) as (W1 & W2 & W3 & W4 & W5 & W6).
  rewrite (di_generateXSS_len _ _ _ (map const ws) _ 0 W2 W4 Hg) in Hs.
  rewrite len_bodies_const, len_map in Hs. lia.
Qed.

Lemma di_blocks_v {D} bm gd locb v (o : distributionDataI D) :
  di_generateBlocks bm gd locb v = Ok o -> di_v o = v.
Proof.
  unfold di_generateBlocks. intros H.
  repeat match type of H with
  | bind ?e _ = Ok _ => destruct e; try discriminate; cbn [bind] in H
  end. injection H as <-. reflexivity.
Qed.
Lemma xss_all_own l : xss_all (own l) = Ok l.
Proof.
  unfold xss_all, own. cbn. pose proof (read_range_app [] l [] 0 (len l) eq_refl) as H.
  cbn [app] in H. rewrite app_nil_r in H. apply H. rewrite len_nil. lia.
Qed.

Lemma Forall2_reuse ds ts :
  Forall2 (fun t u => fst u = tq_value t /\ exists w, tq_words t = Ok w /\ content (snd u) w) ds ts ->
  exists ws, Forall2 (fun d w => tq_words d = Ok w) ds ws /\ tq_reuse ts = Ok (tq_es ds ws).
Proof.
  induction 1 as [|d t ds ts (Hv & w & Hw & Hc) F IH].
  - exists []. split; [constructor|reflexivity].
  - destruct IH as (ws & Fw & E). exists (w :: ws). split; [constructor; assumption|].
    unfold tq_reuse in *. cbn [mapM]. rewrite (xss_all_content _ _ Hc). cbn [bind]. rewrite E. cbn [bind].
    unfold tq_es. cbn [combine map fst snd]. rewrite Hv. reflexivity.
Qed.

Lemma Forall2_words_fun (ds : list tq_in) ws ws' :
  Forall2 (fun d w => tq_words d = Ok w) ds ws -> Forall2 (fun d w => tq_words d = Ok w) ds ws' -> ws = ws'.
Proof.
  intros F; revert ws'; induction F as [|d w ds ws H F IH]; intros ws' F'; inversion F'; subst; [reflexivity|].
  f_equal; [congruence|auto].
Qed.

Lemma ae_elem_spec bm d ws : ae_valid d ->
  Forall2 (fun d w => tq_words d = Ok w) (ae_dists d) ws ->
  exists words, ae_elem bm d = Ok (ae_value d, words)
    /\ words_ok (ae_value d, words) (ae_layout d ws) /\ words_len (ae_value d, words) (ae_layout d ws).
Proof.
  intros Hd F. destruct (ae_valid_words d Hd) as (ws0 & F0 & M & HL).
  rewrite <- (Forall2_words_fun _ _ _ F F0) in *. clear F0 ws0.
  destruct Hd as (Hi & Hv & Hb & _).
  destruct (HL (ae_locb d)) as [HL1 HL2].
  set (l := ae_layout d ws (ae_locb d)) in *.
  assert (Lm : len l < max_words) by (unfold max_words; lia).
  pose proof (own_content l Lm) as Hc.
  destruct (ae_read_has d ws F Hi Hv (ae_locb d) bm (own l) content Hb HL2 (content_has _ _ Hc)
              (fun w l C => C) content_has) as (o & G & Mo & Vo & So & Fo).
  { intros l1 l2 E. apply (sub_content_tail _ l1 l2); [|reflexivity]. fold l in E. rewrite <- E. exact Hc. }
  assert (O : ae_of bm d (ae_locb d) = Ok o).
  { unfold ae_of. rewrite M. cbn [bind]. unfold di_of.
    rewrite (ae_gen_ok d ws F Hi (ae_locb d) Hb HL2). cbn [bind]. exact G. }
  destruct (Forall2_reuse _ _ Fo) as (ws' & F' & R). rewrite <- (Forall2_words_fun _ _ _ F F') in R.
  destruct So as (SI & _).
  unfold ae_elem. rewrite O. cbn [bind]. eexists. split; [reflexivity|]. split.
  - intros b Hb1 Hb2. cbn [snd]. rewrite trunc_to_size_dbl by lia. cbn [bind].
    rewrite SI. cbn [bind]. rewrite R. cbn [bind].
    unfold di_of. rewrite (ae_gen_ok d ws F Hi b ltac:(lia) Hb2). cbn [bind].
    assert (Lm' : len (ae_layout d ws b) < max_words) by (unfold max_words; lia).
    pose proof (own_content _ Lm') as Hc'.
    destruct (ae_read_has d ws F Hi Hv b bm (own (ae_layout d ws b)) content ltac:(lia) Hb2 (content_has _ _ Hc')
              (fun w l C => C) content_has) as (o' & G' & Mo' & Vo' & _).
    { intros l1 l2 E. apply (sub_content_tail _ l1 l2); [|reflexivity]. rewrite <- E. exact Hc'. }
    rewrite G'. cbn [bind]. rewrite Vo'. apply xss_all_own.
  - intros x w b. cbn [snd]. rewrite SI, R.
    destruct (trunc_to_size x) as [lb| |]; try discriminate. cbn [bind]. unfold di_of.
    destruct (di_generateXSS (ae_interp d) lb (tq_es (ae_dists d) ws)) as [l'| |] eqn:E; try discriminate.
    cbn [bind]. destruct (di_generateBlocks bm (tq_make bm) lb (own l')) as [o'| |] eqn:E'; try discriminate.
    cbn [bind]. rewrite (di_blocks_v _ _ _ _ _ E'), xss_all_own. intros H. injection H as <-.
    destruct (tq_es_spec _ ws F) as (W1 & W2 & W3 & W4 & W5 & W6).
    rewrite (di_generateXSS_len _ _ _ (map const ws) _ 0 W2 W4 E).
    rewrite len_bodies_const, len_map. destruct (HL b) as [-> _]. reflexivity.
Qed.

Definition aed_shows bm (locb : Z) (l : list double) (o : distributionData ae_obj)
    (nbt int : list Z) (ds : list ae_in) : Prop :=
  dd_NB bm o = Ok (len nbt) /\ dd_NBT bm o = Ok (map dbl nbt) /\ dd_INT bm o = Ok (map dbl int)
  /\ dd_N bm o = Ok (len ds) /\ dd_energies bm o = Ok (map ae_value ds)
  /\ (forall k d, nth_error ds k = Some d ->
        dd_energy bm o (Z.of_nat k + 1) = Ok (ae_value d)
        /\ exists before w after u loc,
             l = before ++ w ++ after /\ ae_generateXSS d loc = Ok w
             /\ loc = len before + locb
             /\ dd_locator bm o (Z.of_nat k + 1) = Ok loc
             /\ dd_rel bm o (Z.of_nat k + 1) = Ok (len before + 1)
             /\ dd_datum bm o (Z.of_nat k + 1) = Ok (ae_value d, u) /\ ae_shows bm loc w u d)
  /\ (debug bm = true -> forall i, u64 i < 1 \/ len ds < u64 i -> dd_datum bm o i = Throw OutOfRange).

Lemma mapM_ok_map {A B} (f : A -> outcome B) (l : list A) :
  (forall a, In a l -> exists b, f a = Ok b) -> exists r, mapM f l = Ok r.
Proof.
  induction l as [|a l IH]; intros H; [exists []; reflexivity|].
  destruct (H a (or_introl eq_refl)) as (b & Hb). destruct IH as (r & Hr).
  { intros a' Ha'. apply H. right; exact Ha'. }
  exists (b :: r). cbn. rewrite Hb. cbn. rewrite Hr. reflexivity.
Qed.

(** The words functions of a list of valid distributions. *)
Lemma ae_list bm ds : Forall ae_valid ds -> exists es fs,
  mapM (ae_elem bm) ds = Ok es /\ map fst es = map ae_value ds
  /\ Forall2 (fun d f => exists ws, Forall2 (fun d w => tq_words d = Ok w) (ae_dists d) ws /\ f = ae_layout d ws) ds fs
  /\ Forall2 words_ok es fs /\ Forall2 words_len es fs
  /\ Forall (fun f => forall b, 0 < len (f b)) fs
  /\ Forall (fun f => forall b b', len (f b) = len (f b')) fs /\ len fs = len ds.
Proof.
  induction 1 as [|d ds Hd H IH].
  - exists [], []. repeat split; constructor.
  - destruct IH as (es & fs & M & V & F & W1 & W2 & W3 & W4 & W5).
    destruct (ae_valid_words d Hd) as (ws & Fw & _ & HL).
    destruct (ae_elem_spec bm d ws Hd Fw) as (words & E & K1 & K2).
    exists ((ae_value d, words) :: es), (ae_layout d ws :: fs).
    cbn [mapM]. rewrite E. cbn [bind]. rewrite M. cbn [bind].
    split; [reflexivity|]. split; [cbn [map fst]; congruence|].
    split; [constructor; eauto|]. split; [constructor; assumption|]. split; [constructor; assumption|].
    split; [constructor; [|exact W3]|split; [constructor; [|exact W4]|rewrite !len_cons; lia]].
    + intros b. destruct (HL b) as [-> _]. nonneg. lia.
    + intros b b'. destruct (HL b) as [-> _]. destruct (HL b') as [-> _]. reflexivity.
Qed.

Lemma aed_round_trip bm0 nbt int locb ds l :
  aed_generateXSS bm0 nbt int locb ds = Ok l -> Forall ae_valid ds -> 1 <= locb -> locb + len l <= 2 ^ 31 ->
  (forall bm v, has v l -> exists o, aed_make bm locb v = Ok o /\ aed_shows bm locb l o nbt int ds)
  /\ (forall bm, aed_of bm nbt int ds locb = aed_make bm locb (own l)).
Proof.
  intros Hgen Hvalid Hlocb Hsize.
  destruct (ae_list bm0 ds Hvalid) as (es & fs & M & W5 & F & W1 & W2 & W3 & W4 & W6).
  unfold aed_generateXSS in Hgen. rewrite M in Hgen. cbn [bind] in Hgen.
  set (b0 := ddh_b0 nbt locb fs).
  destruct (dd_generateXSS_len nbt int locb _ fs l b0 W2 W4 Hgen) as [Hint Hlen].
  assert (Hs : b0 + len (dd_bodies b0 fs) <= 2 ^ 31) by (unfold b0, ddh_b0 in *; lia).
  assert (El : l = dd_layout (id_layout nbt int) locb [map ae_value ds] fs).
  { rewrite (dd_generateXSS_ok nbt int locb _ fs W1 W3 Hint ltac:(lia) Hs), W5 in Hgen. congruence. }
  assert (Hlv : len (map ae_value ds) = len fs) by (rewrite len_map; lia).
  assert (HD : forall k d, nth_error ds k = Some d -> (k < length fs)%nat).
  { intros k d Hk. apply nth_error_len in Hk. unfold len in *. lia. }
  assert (Hat : forall pre f post, fs = pre ++ f :: post -> exists d ws,
     nth_error ds (length pre) = Some d /\ Forall2 (fun d w => tq_words d = Ok w) (ae_dists d) ws /\ f = ae_layout d ws).
  { intros pre f post E.
    assert (Hf : nth_error fs (length pre) = Some f) by (rewrite E; apply nth_error_mid).
    destruct (Forall2_nth _ _ _ _ _ F Hf) as (d & Hd & ws & Hw & Hl). eauto. }
  assert (Hloc : forall pre f post, fs = pre ++ f :: post ->
     1 <= b0 + len (dd_bodies b0 pre)
     /\ b0 + len (dd_bodies b0 pre) + len (f (b0 + len (dd_bodies b0 pre))) <= 2 ^ 31).
  { intros pre f post E. rewrite E in Hs at 1. rewrite dd_bodies_app, len_app in Hs. cbn [dd_bodies] in Hs.
    rewrite len_app in Hs.
    match type of Hs with context [len (dd_bodies ?b post)] => pose proof (len_nonneg (dd_bodies b post)) end.
    pose proof (len_nonneg (dd_bodies b0 pre)). pose proof (len_nonneg nbt). pose proof (len_nonneg fs).
    split; [unfold b0 at 1, ddh_b0; lia|lia]. }
  assert (Hread : forall bm pre f post x w, fs = pre ++ f :: post ->
       nth_error (map ae_value ds) (length pre) = Some x ->
       has w (f (b0 + len (dd_bodies b0 pre))) ->
       exists u, ae_make bm x (b0 + len (dd_bodies b0 pre)) w = Ok u
         /\ exists d o ws, nth_error ds (length pre) = Some d /\ u = (ae_value d, o)
            /\ Forall2 (fun d w => tq_words d = Ok w) (ae_dists d) ws
            /\ ae_shows bm (b0 + len (dd_bodies b0 pre)) (ae_layout d ws (b0 + len (dd_bodies b0 pre))) o d).
  { intros bm pre f post x w E Hx Hw.
    destruct (Hat pre f post E) as (d & ws & Hd & Fw & ->).
    rewrite nth_error_map, Hd in Hx. cbn in Hx. injection Hx as <-.
    assert (Vd : ae_valid d) by (rewrite Forall_forall in Hvalid; apply Hvalid; eapply nth_error_In; exact Hd).
    destruct Vd as (Hi & Hv & _). destruct (Hloc pre _ post E) as [B1 B2].
    destruct (ae_read_has d ws Fw Hi Hv _ bm w has B1 B2 Hw content_has (fun w l H => H)) as (o & G & Mo & Vo & So & Fo).
    { intros l1 l2 El'. apply (sub_has_tail _ l1 l2); [rewrite <- El'; exact Hw|reflexivity]. }
    exists (ae_value d, o). unfold ae_make. rewrite Mo. split; [reflexivity|].
    exists d, o, ws. auto. }
  split.
  - intros bm v Hv. rewrite El in Hv.
    destruct (ddh_blocks bm v nbt int locb (map ae_value ds) fs Hint Hlv Hv Hlocb W3 Hs (ae_make bm)
       (fun k u => exists pre f post d o ws, k = length pre /\ fs = pre ++ f :: post
            /\ nth_error ds k = Some d /\ u = (ae_value d, o)
            /\ Forall2 (fun d w => tq_words d = Ok w) (ae_dists d) ws
            /\ ae_shows bm (b0 + len (dd_bodies b0 pre)) (ae_layout d ws (b0 + len (dd_bodies b0 pre))) o d) has)
       as (o & _ & Mo & Vo & Lo & So & _).
    + intros w l0 C; apply content_has; exact C.
    + intros l1 l2 E. apply (sub_has_tail v l1 l2); [rewrite <- E; exact Hv|reflexivity].
    + intros pre f post x w E Hx Hw.
      destruct (Hread bm pre f post x w E Hx Hw) as (u & Hu & d & o & ws & Hd & Ho & Hw' & Hsh).
      exists u. split; [exact Hu|]. exists pre, f, post, d, o, ws. auto 10.
    + exists o. split; [exact Mo|].
      destruct So as (S1 & S2 & S3 & S4 & S5 & S6 & S7 & S8 & S9).
      split; [exact S1|]. split; [exact S2|]. split; [exact S3|].
      split; [rewrite <- W6; exact S4|]. split; [exact S5|]. split; [|rewrite <- W6; exact S9].
      intros k d Hk. split.
      * apply S6. rewrite nth_error_map, Hk. reflexivity.
      * destruct (S8 k (HD _ _ Hk)) as (t & Ht & pre & f & post & d' & u & ws & Ek & E & Hd' & Hu & Fw & Hsh).
        assert (d' = d) by congruence. subst d'.
        destruct (dd_split (id_layout nbt int) locb [map ae_value ds] fs ltac:(repeat constructor; exact Hlv) pre _ post E)
          as (Q1 & Q2 & Q3 & Q4).
        rewrite ddh_b0_eq in Q1, Q2 by assumption. fold b0 in Q1, Q2.
        destruct (Hat pre f post E) as (d'' & ws' & Hd'' & Fw' & Ef).
        assert (d'' = d) by congruence. subst d''.
        rewrite <- (Forall2_words_fun _ _ _ Fw Fw') in Ef.
        destruct (Hloc pre f post E) as [B1 B2].
        assert (Vd : ae_valid d) by (rewrite Forall_forall in Hvalid; apply Hvalid; eapply nth_error_In; exact Hk).
        destruct (ae_valid_words d Vd) as (ws2 & Fw2 & M2 & _). destruct Vd as (Hi & Hv' & _).
        rewrite <- (Forall2_words_fun _ _ _ Fw Fw2) in M2.
        eexists _, _, _, u, (b0 + len (dd_bodies b0 pre)).
        split; [rewrite El; exact Q1|]. rewrite Q2. rewrite (len_id_layout nbt int Hint).
        change (dd_nc [map ae_value ds]) with 2.
        destruct (S7 pre _ post E) as [R1 R2]. fold b0 in R1, R2.
        assert (Ek' : Z.of_nat k + 1 = len pre + 1) by (unfold len; lia). rewrite Ek'.
        split; [|split; [|split; [exact R1|split; [|split]]]].
        -- subst f. unfold ae_generateXSS. rewrite M2. cbn [bind]. apply ae_gen_ok; auto.
        -- unfold b0 at 1, ddh_b0. lia.
        -- rewrite R2. f_equal. unfold b0 at 1, ddh_b0. lia.
        -- rewrite <- Ek'. rewrite Ht, Hu. reflexivity.
        -- subst f. exact Hsh.
  - intros bm. unfold aed_of.
    destruct (ae_list bm ds Hvalid) as (es' & fs' & M' & W5' & F' & W1' & W2' & W3' & W4' & W6').
    assert (Ef : fs' = fs).
    { clear - F F'. revert fs' F'. induction F as [|d f ds fs (ws & Hw & ->) F IH]; intros fs' F'; inversion F'; subst; [reflexivity|].
      f_equal; [|auto]. destruct H1 as (ws' & Hw' & ->). rewrite (Forall2_words_fun _ _ _ Hw Hw'). reflexivity. }
    subst fs'. rewrite M'. cbn [bind]. unfold dd_of.
    rewrite (dd_generateXSS_ok nbt int locb _ fs W1' W3' Hint ltac:(lia) Hs), W5', <- El. cbn [bind].
    assert (Lm : len l < max_words) by (unfold max_words; lia).
    pose proof (content_has _ _ (own_content l Lm)) as Hv. rewrite El in Hv at 2.
    destruct (ddh_blocks bm (own l) nbt int locb (map ae_value ds) fs Hint Hlv Hv Hlocb W3 Hs (ae_make bm)
       (fun k t => True) has)
       as (o & G & Mo & Vo & Lo & So & _).
    + intros w l0 C; apply content_has; exact C.
    + intros l1 l2 E. apply (sub_has_tail _ l1 l2); [rewrite <- E; exact Hv|reflexivity].
    + intros pre f post x w E Hx Hw. destruct (Hread bm pre f post x w E Hx Hw) as (u & Hu & _). eauto.
    + unfold aed_make. rewrite G, Mo. reflexivity.
Qed.
