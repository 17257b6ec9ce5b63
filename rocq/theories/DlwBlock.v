(** EnergyDistributionBlock: the DLW block with its TYR block. *)
From Coq Require Import ZArith Bool List Lia.
From Coq Require Import ZifyBool ZifyNat.
From Verif Require Export EnergyBlocks.
Import ListNotations.
Open Scope Z_scope.

(** * Code *)

(** MultiplicityData, src/ACEtk/continuous/EnergyDistributionBlock.hpp:50-51: a number or a
    TabulatedMultiplicity, which is a TabulatedData (TabulatedMultiplicity.hpp:17) *)
Inductive mult_obj := MuNum (m : Z) | MuTab (t : tabulatedData).

(** The loop of src/ACEtk/continuous/EnergyDistributionBlock/src/generateXSS.hpp:16-154 *)
Fixpoint dl_append bm (size : Z) (index : nat) (ds : list en_obj) (ms : list mult_obj)
    (xss : list double) (tyr : list Z) : outcome (list double * list Z) :=
  match ds, ms with
  | d :: ds, m :: ms =>
      let locator := u64 (len xss - size + 1) in
      r <- (match m with
            | MuTab t =>
                n <- trunc_to_u32 (dbl (u64 (100 + locator))) ;;
                w <- xss_all (td_v t) ;; Ok (xss ++ w, tyr ++ [n])
            | MuNum n => n <- trunc_to_u32 (dbl n) ;; Ok (xss, tyr ++ [n])
            end) ;;
      let '(xss, tyr) := r in
      let locator := u64 (len xss - size + 1) in
      xss <- upd index (dbl locator) xss ;;
      w <- en_words bm d locator ;;
      dl_append bm size (S index) ds ms (xss ++ w) tyr
  | _, _ => Ok (xss, tyr)
  end.
(** .../generateXSS.hpp:1-157 *)
Definition dl_generateXSS bm (ds : list en_obj) (ms : list mult_obj) : outcome (list double * list Z) :=
  _ <- throw_if (negb (len ds =? len ms)) StdException ;;
  dl_append bm (len ds) 0 ds ms (repeat (dbl 0) (length ds)) [].

(** EnergyDistributionBlock.hpp:61-69 *)
Record dlw := Dlw { dl_v : view; dl_nr : Z; dl_tyr : tyr;
  dl_data : list en_obj; dl_mults : list mult_obj; dl_frames : list frame }.

(** LDLW( index ), EnergyDistributionBlock.hpp:119-125, verifyDataIndex.hpp:1-11 *)
Definition dl_LDLW_ bm (v : view) (nr index : Z) : outcome Z :=
  _ <- check bm (bl_verify nr index) ;; ixss bm v index.

(** One iteration of .../generateBlocks.hpp:93-127, with iterator_ = begin + NR (line 88) *)
Definition dl_one bm (v : view) (nr : Z) (t : tyr) (index : Z) : outcome (en_obj * mult_obj) :=
  locator <- (n <- dl_LDLW_ bm v nr index ;; Ok (u64 n)) ;;
  _ <- throw_if (locator =? 0) StdException ;;
  let data := nr + 1 in
  m' <- (if index =? nr then Ok 0 else ty_mult bm t (index + 1)) ;;
  left <- iter bm v (data + locator - 1) ;;
  right <- (if index =? nr then Ok (vend v)
            else if m' <? 100 then (l <- dl_LDLW_ bm v nr (index + 1) ;; iter bm v (data + l - 1))
            else iter bm v (data + m' - 100 - 1)) ;;
  d <- en_read bm locator (sub v left right) ;;
  m <- ty_mult bm t index ;;
  if 100 <? m then
    mleft <- iter bm v (data + m - 100 - 1) ;;
    tm <- td_make bm (sub v mleft left) ;; Ok (d, MuTab tm)
  else Ok (d, MuNum m).

(** .../generateBlocks.hpp:86-131; the first NR frames of TYR (undefined if there are fewer) *)
Definition dl_generateBlocks bm (v : view) (nr : Z) (t : tyr) : outcome dlw :=
  rs <- mapM (dl_one bm v nr t) (seqZ 1 (Z.to_nat nr)) ;;
  if len (ty_frames t) <? nr then UB
  else Ok (Dlw v nr t (map fst rs) (map snd rs) (firstn (Z.to_nat nr) (ty_frames t))).

(** .../ctor.hpp:6-27, 104-110 *)
Definition dl_of bm (ds : list en_obj) (ms : list mult_obj) (frames : list frame) : outcome dlw :=
  r <- dl_generateXSS bm ds ms ;;
  t <- ty_of bm frames (snd r) ;;
  dl_generateBlocks bm (own (fst r)) (u32 (len ds)) t.

(** .../ctor.hpp:120-127, verifySize.hpp:1-13 *)
Definition dl_make bm (v : view) (data : Z) (t : tyr) (nr : Z) : outcome dlw :=
  _ <- throw_if (s64 (data - vbeg v) <? nr) StdException ;;
  dl_generateBlocks bm v nr t.

(** EnergyDistributionBlock.hpp:102-211 *)
Definition dl_NR (o : dlw) : Z := dl_nr o.
Definition dl_LDLW bm (o : dlw) (index : Z) : outcome Z := dl_LDLW_ bm (dl_v o) (dl_nr o) index.
Definition dl_distribution bm (o : dlw) (index : Z) : outcome en_obj :=
  _ <- check bm (bl_verify (dl_nr o) index) ;; at_ (dl_data o) index.
Definition dl_multiplicity bm (o : dlw) (index : Z) : outcome mult_obj :=
  _ <- check bm (bl_verify (dl_nr o) index) ;; at_ (dl_mults o) index.
Definition dl_frame bm (o : dlw) (index : Z) : outcome frame :=
  _ <- check bm (bl_verify (dl_nr o) index) ;; at_ (dl_frames o) index.

(** * Specification *)

Inductive mult_in := MNum (m : Z) | MTab (nbt int : list Z) (x y : list double).

Definition mult_of bm (m : mult_in) : outcome mult_obj :=
  match m with
  | MNum m => Ok (MuNum m)
  | MTab nbt int x y => t <- td_of bm nbt int x y ;; Ok (MuTab t)
  end.
Definition mult_shows bm (o : mult_obj) (m : mult_in) : Prop :=
  match o, m with
  | MuNum n, MNum n' => n = n'
  | MuTab t, MTab nbt int x y => td_shows bm t nbt int x y
  | _, _ => False
  end.
(** The multiplicities that can be written: a number below 100, or a table whose lists
    have matching lengths. *)
Definition mult_valid (m : mult_in) : Prop :=
  match m with
  | MNum n => 0 <= n < 100
  | MTab nbt int x y => len int = len nbt /\ len y = len x
  end.

Definition dl_shows bm (o : dlw) (es : list en_in) (ms : list mult_in) (fs : list frame) : Prop :=
  dl_NR o = len es
  /\ (forall k e, nth_error es k = Some e -> exists d, dl_distribution bm o (Z.of_nat k + 1) = Ok d /\ en_shows bm d e)
  /\ (forall k m, nth_error ms k = Some m -> exists d, dl_multiplicity bm o (Z.of_nat k + 1) = Ok d /\ mult_shows bm d m)
  /\ (forall k f, nth_error fs k = Some f -> dl_frame bm o (Z.of_nat k + 1) = Ok f)
  /\ (debug bm = true -> forall i, u64 i < 1 \/ len es < u64 i ->
        dl_distribution bm o i = Throw OutOfRange /\ dl_multiplicity bm o i = Throw OutOfRange
        /\ dl_frame bm o i = Throw OutOfRange).

(** * Lemmas *)

(** The words of one reaction: multiplicity words (none for a number), then the distribution. *)
Notation ent := ((Z + list double) * (Z -> list double))%type.
Definition mw (e : ent) : list double := match fst e with inl _ => [] | inr w => w end.
Definition dl_fun (e : ent) : Z -> list double := fun b => mw e ++ snd e (b + len (mw e)).
Definition dl_words (b : Z) (es : list ent) : list double := concat (pieces b (map dl_fun es)).
Fixpoint dl_locs (b : Z) (es : list ent) : list Z :=
  match es with [] => [] | e :: r => b + len (mw e) :: dl_locs (b + len (dl_fun e b)) r end.
Fixpoint dl_tyrs (b : Z) (es : list ent) : list Z :=
  match es with
  | [] => []
  | e :: r => (match fst e with inl n => n | inr _ => 100 + b end) :: dl_tyrs (b + len (dl_fun e b)) r
  end.
Definition dl_layout (es : list ent) : list double := map dbl (dl_locs 1 es) ++ dl_words 1 es.

Lemma dl_words_cons b e r : dl_words b (e :: r) = dl_fun e b ++ dl_words (b + len (dl_fun e b)) r.
Proof. reflexivity. Qed.
Lemma dl_words_app b r s : dl_words b (r ++ s) = dl_words b r ++ dl_words (b + len (dl_words b r)) s.
Proof.
  revert b; induction r as [|e r IH]; intros b; cbn [app].
  - change (len (dl_words b [])) with 0. rewrite Z.add_0_r. reflexivity.
  - rewrite !dl_words_cons, IH, len_app, app_assoc, Z.add_assoc. reflexivity.
Qed.
Lemma dl_locs_app b r s : dl_locs b (r ++ s) = dl_locs b r ++ dl_locs (b + len (dl_words b r)) s.
Proof.
  revert b; induction r as [|e r IH]; intros b; cbn [app dl_locs].
  - change (len (dl_words b [])) with 0. rewrite Z.add_0_r. reflexivity.
  - rewrite !dl_words_cons, IH, len_app, Z.add_assoc. reflexivity.
Qed.
Lemma dl_tyrs_app b r s : dl_tyrs b (r ++ s) = dl_tyrs b r ++ dl_tyrs (b + len (dl_words b r)) s.
Proof.
  revert b; induction r as [|e r IH]; intros b; cbn [app dl_tyrs].
  - change (len (dl_words b [])) with 0. rewrite Z.add_0_r. reflexivity.
  - rewrite !dl_words_cons, IH, len_app, Z.add_assoc. reflexivity.
Qed.
Lemma length_dl_locs b es : length (dl_locs b es) = length es.
Proof. revert b; induction es as [|e r IH]; intros b; cbn; [reflexivity|]. rewrite IH. reflexivity. Qed.
Lemma length_dl_tyrs b es : length (dl_tyrs b es) = length es.
Proof. revert b; induction es as [|e r IH]; intros b; cbn; [reflexivity|]. rewrite IH. reflexivity. Qed.
Lemma len_dl_layout es : len (dl_layout es) = len es + len (dl_words 1 es).
Proof. unfold dl_layout. rewrite len_app, len_map. unfold len at 1. rewrite length_dl_locs. reflexivity. Qed.

Definition ent_kind srt (i : mult_in * en_in) (e : ent) : Prop :=
  en_kind srt (snd i) (snd e)
  /\ match fst i, fst e with
     | MNum n, inl n' => n = n' /\ 0 <= n < 100
     | MTab nbt int x y, inr w => td_generateXSS nbt int x y = Ok w
     | _, _ => False
     end.

(** The number of words of a multiplicity in the block. *)
Definition mult_size (m : mult_in) : Z :=
  match m with MNum _ => 0 | MTab nbt _ x _ => 2 + 2 * len nbt + 2 * len x end.
Definition ent_size srt (i : mult_in * en_in) (n : Z) : Prop :=
  exists k, en_size srt (snd i) k /\ n = mult_size (fst i) + k.
Definition ent_sized srt (i : mult_in * en_in) (e : ent) : Prop :=
  forall n, ent_size srt i n -> forall b, len (dl_fun e b) = n.

Lemma ent_kind_exists srt i : eqb_sort_contract srt -> mult_valid (fst i) -> en_valid srt (snd i) ->
  exists e, ent_kind srt i e /\ ent_sized srt i e.
Proof.
  intros Hs Hm He. destruct (en_kind_exists srt _ Hs He) as (g & Hg & Hz).
  destruct (fst i) as [n|nbt int x y] eqn:E; cbn [mult_valid] in Hm.
  - exists (inl n, g). split.
    + split; [exact Hg|]. rewrite E. cbn. auto.
    + intros m (k & Hk & ->) b. rewrite E. unfold dl_fun. rewrite len_app. cbn [snd]. rewrite (Hz _ Hk). reflexivity.
  - destruct Hm as [H1 H2]. exists (inr (td_layout nbt int x y), g). split.
    + split; [exact Hg|]. rewrite E. cbn. apply td_generateXSS_ok; assumption.
    + intros m (k & Hk & ->) b. rewrite E. unfold dl_fun. rewrite len_app. cbn [snd]. rewrite (Hz _ Hk). unfold mw. cbn [fst mult_size].
      rewrite len_td_layout by assumption. reflexivity.
Qed.
Lemma ent_kinds srt is : eqb_sort_contract srt -> Forall (fun i => mult_valid (fst i) /\ en_valid srt (snd i)) is ->
  exists es, Forall2 (ent_kind srt) is es /\ Forall2 (ent_sized srt) is es.
Proof.
  intros Hs HF. induction HF as [|i is [H1 H2] _ (es & IH & IH')]; [exists []; split; constructor|].
  destruct (ent_kind_exists srt i Hs H1 H2) as (e & He & He'). exists (e :: es). split; constructor; assumption.
Qed.
Lemma dl_words_size srt is es ns b : Forall2 (ent_sized srt) is es -> Forall2 (ent_size srt) is ns ->
  len (dl_words b es) = sumZ ns.
Proof.
  intros H. revert ns b. induction H as [|i e is es He _ IH]; intros ns b H2; inversion H2; subst; [reflexivity|].
  rewrite dl_words_cons. cbn [sumZ fold_right]. rewrite len_app, (He _ ltac:(eassumption)), (IH l'); [reflexivity|assumption].
Qed.

Definition mult_holds (e : ent) (m : mult_obj) : Prop :=
  match m, fst e with
  | MuNum n, inl n' => n = n' /\ 0 <= n < 100
  | MuTab t, inr w => xss_all (td_v t) = Ok w
  | _, _ => False
  end.

Lemma ent_kinds_of bm srt is es : Forall2 (ent_kind srt) is es -> len (dl_words 1 es) < max_words ->
  exists ds ms, mapM (en_of bm srt) (map snd is) = Ok ds /\ mapM (mult_of bm) (map fst is) = Ok ms
    /\ length ds = length es /\ length ms = length es
    /\ Forall2 (fun e x => en_holds bm (snd e) (fst x) /\ mult_holds e (snd x)) es (combine ds ms).
Proof.
  intros HF. generalize 1. induction HF as [|i e is es [(_ & Hof & _) Hm] _ IH]; intros b HB.
  - exists [], []. repeat split; constructor.
  - rewrite dl_words_cons in HB. rewrite len_app in HB. pose proof (len_nonneg (dl_fun e b)) as N.
    pose proof (len_nonneg (dl_words (b + len (dl_fun e b)) es)) as N'.
    destruct (IH (b + len (dl_fun e b)) ltac:(lia)) as (ds & ms & M1 & M2 & L1 & L2 & F). destruct (Hof bm) as (o & Oo & Ho).
    assert (Hm' : exists m, mult_of bm (fst i) = Ok m /\ mult_holds e m).
    { destruct (fst i) as [n|nbt int x y], (fst e) as [n'|w] eqn:Ee; try contradiction.
      - exists (MuNum n). split; [reflexivity|]. unfold mult_holds. rewrite Ee. exact Hm.
      - destruct (td_of_round_trip bm _ _ _ _ _ Hm) as (t & Ht & Ct & _).
        + assert (Lw : len (dl_fun e b) = len w + len (snd e (b + len w))) by (unfold dl_fun, mw; rewrite Ee; apply len_app).
          pose proof (len_nonneg (snd e (b + len w))). lia.
        + exists (MuTab t). cbn [mult_of]. rewrite Ht. split; [reflexivity|]. unfold mult_holds. rewrite Ee. apply xss_all_content. exact Ct. }
    destruct Hm' as (m & Om & Hmm). exists (o :: ds), (m :: ms). cbn [map mapM]. rewrite Oo, Om. cbn [bind]. rewrite M1, M2.
    split; [reflexivity|]. split; [reflexivity|]. split; [cbn; lia|]. split; [cbn; lia|]. cbn [combine]. constructor; auto.
Qed.

Lemma dl_append_ok bm size es ds ms locs data tyr :
  size = len locs + len es -> length ds = length es -> length ms = length es ->
  Forall2 (fun e x => en_holds bm (snd e) (fst x) /\ mult_holds e (snd x)) es (combine ds ms) ->
  1 + len data + len (dl_words (1 + len data) es) <= 2 ^ 31 ->
  dl_append bm size (length locs) ds ms (locs ++ repeat (dbl 0) (length ds) ++ data) tyr
  = Ok (locs ++ map dbl (dl_locs (1 + len data) es) ++ data ++ dl_words (1 + len data) es,
        tyr ++ dl_tyrs (1 + len data) es).
Proof.
  revert ds ms locs data tyr. induction es as [|e es IH]; intros [|d ds] [|m ms] locs data tyr Hs L1 L2 HF HL; try discriminate.
  - cbn. rewrite !app_nil_r. reflexivity.
  - cbn [combine] in HF. inversion HF as [|? ? ? ? [Hd Hm] HF']; subst x y l l'. cbn [fst snd] in *.
    cbn [length] in L1, L2. injection L1 as L1. injection L2 as L2.
    rewrite dl_words_cons in HL |- *. cbn [dl_append length repeat app dl_locs dl_tyrs map]. rewrite len_app in HL.
    set (b := 1 + len data) in *. pose proof (len_nonneg data) as Nd. pose proof (len_nonneg (mw e)) as Nm.
    pose proof (len_nonneg (dl_words (b + len (dl_fun e b)) es)) as Nc.
    assert (Lf : len (dl_fun e b) = len (mw e) + len (snd e (b + len (mw e)))) by (unfold dl_fun; apply len_app).
    set (b' := b + len (mw e)) in *. pose proof (len_nonneg (snd e b')) as Ng.
    assert (Bb : 1 <= b) by (unfold b; lia). assert (Bb' : b' = b + len (mw e)) by reflexivity.
    assert (Ho : forall w, len (locs ++ dbl 0 :: repeat (dbl 0) (length ds) ++ data ++ w) - size + 1 = b + len w).
    { intros w. rewrite len_app, len_cons, !len_app, len_repeat. rewrite Hs, len_cons. unfold b. unfold len. lia. }
    pose proof (Ho []) as Ho0. rewrite app_nil_r in Ho0. change (len (@nil double)) with 0 in Ho0. rewrite Z.add_0_r in Ho0.
    rewrite Ho0. rewrite (u64_small b) by lia.
    assert (Hr : (match m with
            | MuTab t =>
                n <- trunc_to_u32 (dbl (u64 (100 + b))) ;;
                w <- xss_all (td_v t) ;; Ok ((locs ++ dbl 0 :: repeat (dbl 0) (length ds) ++ data) ++ w, tyr ++ [n])
            | MuNum n => n <- trunc_to_u32 (dbl n) ;; Ok (locs ++ dbl 0 :: repeat (dbl 0) (length ds) ++ data, tyr ++ [n])
            end) = Ok (locs ++ dbl 0 :: repeat (dbl 0) (length ds) ++ data ++ mw e, tyr ++ [match fst e with inl n => n | inr _ => 100 + b end])).
    { unfold mult_holds in Hm. unfold mw in *. destruct m as [n|t], (fst e) as [n'|w] eqn:Ee; try contradiction.
      - destruct Hm as [-> Hn]. rewrite trunc_to_u32_dbl by lia. cbn [bind]. rewrite app_nil_r. reflexivity.
      - rewrite u64_small by lia. rewrite trunc_to_u32_dbl by lia. cbn [bind]. rewrite Hm. cbn [bind].
        f_equal. f_equal. las. }
    rewrite Hr. cbn [bind]. rewrite Ho. fold b'. rewrite (u64_small b') by lia.
    rewrite upd_mid. cbn [bind]. rewrite Hd by (split; lia). cbn [bind].
    specialize (IH ds ms (locs ++ [dbl b']) (data ++ dl_fun e b) (tyr ++ [match fst e with inl n => n | inr _ => 100 + b end])).
    rewrite app_length in IH. cbn [length] in IH. replace (length locs + 1)%nat with (S (length locs)) in IH by lia.
    assert (Eb : 1 + len (data ++ dl_fun e b) = b + len (dl_fun e b)) by (rewrite len_app; unfold b; lia).
    rewrite Eb in IH.
    replace ((locs ++ dbl b' :: repeat (dbl 0) (length ds) ++ data ++ mw e) ++ snd e b')
      with ((locs ++ [dbl b']) ++ repeat (dbl 0) (length ds) ++ data ++ dl_fun e b) by (unfold dl_fun; fold b'; las).
    rewrite IH; [f_equal; f_equal; las| |assumption|assumption|assumption|lia].
    rewrite Hs, len_app, len_cons. change (len [dbl b']) with 1. lia.
Qed.

Lemma dl_generate_ok bm es ds ms : length ds = length es -> length ms = length es ->
  Forall2 (fun e x => en_holds bm (snd e) (fst x) /\ mult_holds e (snd x)) es (combine ds ms) ->
  1 + len (dl_words 1 es) <= 2 ^ 31 ->
  dl_generateXSS bm ds ms = Ok (dl_layout es, dl_tyrs 1 es).
Proof.
  intros L1 L2 HF HL. unfold dl_generateXSS. replace (len ds =? len ms) with true by (symmetry; unfold len; lia).
  cbn [negb throw_if bind].
  pose proof (dl_append_ok bm (len ds) es ds ms [] [] [] ltac:(unfold len in *; cbn; lia) L1 L2 HF) as H.
  change (1 + len (@nil double)) with 1 in H. specialize (H HL). cbn [app length] in H. rewrite app_nil_r in H. exact H.
Qed.

(** ** Reading *)

Lemma ty_shows_mult bm t frames ms k m : ty_shows bm t frames ms -> nth_error ms k = Some m ->
  ty_mult bm t (Z.of_nat k + 1) = Ok m.
Proof. intros (_ & _ & _ & _ & H & _). apply H. Qed.

Lemma Forall2_split_r {A B} (R : A -> B -> Prop) l r r1 b r2 : Forall2 R l r -> r = r1 ++ b :: r2 ->
  exists a, R a b.
Proof.
  intros H ->. destruct (Forall2_app_inv_r _ _ H) as (l1 & l2 & _ & H2 & _). inversion H2; subst. eauto.
Qed.

Section Read.
  Variables (bm : build) (srt : list eqb_in -> list eqb_in).
  Variables (v : view) (is : list (mult_in * en_in)) (es : list ent) (t : tyr) (fs : list frame) (ms : list Z).
  Hypothesis HF : Forall2 (ent_kind srt) is es.
  Hypothesis Hv : has v (dl_layout es).
  Hypothesis HL : 1 + len (dl_words 1 es) <= 2 ^ 31.
  Hypothesis Ht : ty_shows bm t fs (dl_tyrs 1 es ++ ms).

  Lemma dl_bounds : len es + len (dl_words 1 es) < 2 ^ 31.
  Proof. pose proof (has_bounds _ _ Hv) as B. rewrite len_dl_layout in B. lia. Qed.

  Lemma dl_LDLW_has e1 e e2 i : es = e1 ++ e :: e2 -> i = len e1 + 1 ->
    dl_LDLW_ bm v (len es) i = Ok (1 + len (dl_words 1 e1) + len (mw e)).
  Proof.
    intros E ->. pose proof dl_bounds as B. pose proof (len_nonneg e1) as N1. pose proof (len_nonneg e2) as N2.
    assert (Ln : len es = len e1 + 1 + len e2) by (rewrite E, len_app, len_cons; lia).
    unfold dl_LDLW_, bl_verify. pose proof (len_nonneg (dl_words 1 es)) as N3. rewrite u64_small by lia.
    rewrite check_verifyIndex by lia. cbn [bind].
    assert (Lw : len (dl_words 1 es) = len (dl_words 1 e1) + len (dl_fun e (1 + len (dl_words 1 e1))) + len (dl_words (1 + len (dl_words 1 e1) + len (dl_fun e (1 + len (dl_words 1 e1)))) e2)).
    { rewrite E, dl_words_app, dl_words_cons, !len_app. lia. }
    assert (Lf : len (dl_fun e (1 + len (dl_words 1 e1))) = len (mw e) + len (snd e (1 + len (dl_words 1 e1) + len (mw e)))) by (unfold dl_fun; apply len_app).
    pose proof (len_nonneg (dl_words 1 e1)). pose proof (len_nonneg (mw e)).
    match type of Lw with _ = _ + len ?q => pose proof (len_nonneg q) end.
    match type of Lf with _ = _ + len ?q => pose proof (len_nonneg q) end.
    apply (ixss_at bm v (map dbl (dl_locs 1 e1)) _ (map dbl (dl_locs (1 + len (dl_words 1 e1) + len (dl_fun e (1 + len (dl_words 1 e1)))) e2) ++ dl_words 1 es)).
    - apply (has_eq _ _ _ Hv). unfold dl_layout. rewrite E at 1. rewrite dl_locs_app. cbn [dl_locs]. rewrite map_app. cbn [map]. las.
    - rewrite len_map. unfold len. rewrite length_dl_locs. reflexivity.
    - lia.
  Qed.

  Lemma dl_tyr_has e1 e e2 i : es = e1 ++ e :: e2 -> i = len e1 + 1 ->
    ty_mult bm t i = Ok (match fst e with inl n => n | inr _ => 100 + (1 + len (dl_words 1 e1)) end).
  Proof.
    intros E ->. unfold len at 1. eapply ty_shows_mult; [exact Ht|]. rewrite E, dl_tyrs_app. cbn [dl_tyrs].
    rewrite nth_error_app1 by (rewrite app_length; cbn [length]; rewrite length_dl_tyrs; lia).
    rewrite nth_error_app2 by (rewrite length_dl_tyrs; lia). rewrite length_dl_tyrs, Nat.sub_diag. reflexivity.
  Qed.

  Lemma dl_one_has e1 e e2 i mi ei : es = e1 ++ e :: e2 -> i = len e1 + 1 -> ent_kind srt (mi, ei) e ->
    exists d m, dl_one bm v (len es) t i = Ok (d, m) /\ en_shows bm d ei /\ mult_shows bm m mi.
  Proof.
    intros E Ei [(Wg & _ & Rd) Hm]. cbn [fst snd] in Hm, Rd.
    pose proof dl_bounds as B. pose proof (len_nonneg e1) as N1. pose proof (len_nonneg e2) as N2.
    assert (Ln : len es = len e1 + 1 + len e2) by (rewrite E, len_app, len_cons; lia).
    set (b := 1 + len (dl_words 1 e1)) in *. set (b' := b + len (mw e)). set (g := snd e) in *. set (b2 := b + len (dl_fun e b)).
    assert (Lw : dl_words 1 es = dl_words 1 e1 ++ mw e ++ g b' ++ dl_words b2 e2).
    { rewrite E, dl_words_app, dl_words_cons. unfold dl_fun at 1. fold b b' g b2. las. }
    assert (Lf : b2 = b' + len (g b')).
    { assert (X : len (dl_fun e b) = len (mw e) + len (g b')) by (unfold dl_fun; apply len_app). assert (Y : b' = b + len (mw e)) by reflexivity. unfold b2. lia. }
    assert (Y : b' = b + len (mw e)) by reflexivity. assert (Y' : b = 1 + len (dl_words 1 e1)) by reflexivity.
    assert (Lw' : len (dl_words 1 es) = b2 - 1 + len (dl_words b2 e2)) by (rewrite Lw, !len_app; lia).
    pose proof (len_nonneg (mw e)) as Nm. pose proof (len_nonneg (g b')) as Ng. pose proof (len_nonneg (dl_words b2 e2)) as Nw.
    pose proof (len_nonneg (dl_words 1 e1)) as N0. pose proof (has_bounds _ _ Hv) as HB. rewrite len_dl_layout in HB.
    assert (Bb : 1 <= b) by (unfold b; lia). assert (Bb' : b' = b + len (mw e)) by reflexivity.
    assert (Eb : b - 1 = len (dl_words 1 e1)) by (unfold b; lia).
    unfold dl_one. rewrite (dl_LDLW_has e1 e e2 i E Ei). fold b b'. cbn [bind]. rewrite u64_small by lia.
    destruct (Z.eqb_spec b' 0) as [|Hb0]; [lia|]. cbn [throw_if bind].
    assert (Hlocs : len (map dbl (dl_locs 1 es)) = len es) by (rewrite len_map; unfold len; rewrite length_dl_locs; reflexivity).
    assert (H1 : has v ((map dbl (dl_locs 1 es) ++ dl_words 1 e1 ++ mw e) ++ g b' ++ dl_words b2 e2)).
    { apply (has_eq _ _ _ Hv). unfold dl_layout. rewrite Lw. las. }
    assert (Hpart : exists m', (if i =? len es then Ok 0 else ty_mult bm t (i + 1)) = Ok m' /\ exists right,
       (if i =? len es then Ok (vend v)
            else if m' <? 100 then (l <- dl_LDLW_ bm v (len es) (i + 1) ;; iter bm v (len es + 1 + l - 1))
            else iter bm v (len es + 1 + m' - 100 - 1)) = Ok right
       /\ has (sub v (vbeg v + len es + b' - 1) right) (g b')).
    { destruct e2 as [|e' e2].
      - change (len (@nil ent)) with 0 in Ln. destruct (Z.eqb_spec i (len es)) as [_|]; [|lia].
        exists 0. split; [reflexivity|]. exists (vend v). split; [reflexivity|].
        change (dl_words b2 []) with (@nil double) in H1. rewrite app_nil_r in H1. apply (sub_has_tail v _ _ _ H1).
        rewrite !len_app, Hlocs. lia.
      - rewrite len_cons in Ln. pose proof (len_nonneg e2). destruct (Z.eqb_spec i (len es)) as [|_]; [lia|].
        assert (E' : es = (e1 ++ [e]) ++ e' :: e2) by (rewrite E; las).
        assert (Ei' : i + 1 = len (e1 ++ [e]) + 1) by (rewrite len_app; change (len [e]) with 1; lia).
        assert (Ew : len (dl_words 1 (e1 ++ [e])) = b2 - 1).
        { rewrite dl_words_app, dl_words_cons, !len_app. fold b. change (dl_words (b + len (dl_fun e b)) []) with (@nil double). change (len (@nil double)) with 0. unfold b2. lia. }
        rewrite (dl_tyr_has _ _ _ _ E' Ei'). eexists; split; [reflexivity|].
        exists (vbeg v + len es + b2 - 1). split.
        + destruct (Forall2_split_r _ _ _ _ _ _ HF E') as ([mi' ei'] & [_ Hm']). cbn [fst snd] in Hm'. rewrite Ew.
          assert (B2 : b2 <= len (dl_words 1 es)).
          { rewrite dl_words_cons, len_app in Lw'. assert (0 < len (dl_fun e' b2)); [|pose proof (len_nonneg (dl_words (b2 + len (dl_fun e' b2)) e2)); lia].
            destruct (Forall2_split_r _ _ _ _ _ _ HF E') as (i' & [(W' & _) _]). destruct W' as [_ W']. unfold dl_fun. rewrite len_app. pose proof (len_nonneg (mw e')). specialize (W' (b2 + len (mw e'))). lia. }
          destruct mi', (fst e') as [n'|w'] eqn:Ee'; try contradiction.
          * destruct Hm' as [-> Hn]. destruct (Z.ltb_spec n' 100); [|lia]. rewrite (dl_LDLW_has _ _ _ _ E' Ei'). cbn [bind].
            rewrite Ew. unfold mw. rewrite Ee'. change (len (@nil double)) with 0. rewrite (iter_has bm v _ _ Hv) by lia. f_equal. lia.
          * destruct (Z.ltb_spec (100 + (1 + (b2 - 1))) 100); [lia|]. rewrite (iter_has bm v _ _ Hv) by lia. f_equal. lia.
        + apply content_has. apply (sub_content v _ _ _ _ _ H1).
          * rewrite !len_app, Hlocs. lia.
          * rewrite !len_app, Hlocs. lia. }
    destruct Hpart as (m' & -> & right & Hright & Hg). cbn [bind].
    assert (Bn : 0 < len (g b')) by apply Wg.
    rewrite (iter_has bm v _ _ Hv) by lia. cbn [bind]. rewrite Hright. cbn [bind].
    replace (vbeg v + (len es + 1 + b' - 1) - 1) with (vbeg v + len es + b' - 1) by lia.
    destruct (Rd bm b' _ ltac:(split; lia) Hg) as (d & Rdd & Sd & _). rewrite Rdd. cbn [bind].
    rewrite (dl_tyr_has e1 e e2 i E Ei). cbn [bind]. fold b. unfold mw in Bb'.
    destruct mi as [n'|nbt int x y], (fst e) as [n|w] eqn:Ee; try contradiction.
    - destruct Hm as [-> Hn]. destruct (Z.ltb_spec 100 n); [lia|]. exists d, (MuNum n). split; [reflexivity|]. split; [exact Sd|]. reflexivity.
    - destruct (Z.ltb_spec 100 (100 + b)); [|lia]. rewrite (iter_has bm v _ _ Hv) by lia. cbn [bind].
      destruct (td_round_trip bm (sub v (vbeg v + (len es + 1 + (100 + b) - 100 - 1) - 1) (vbeg v + len es + b' - 1)) nbt int x y w Hm) as (tm & Mt & _ & St).
      { apply content_has. apply (sub_content v (map dbl (dl_locs 1 es) ++ dl_words 1 e1) w (g b' ++ dl_words b2 e2)).
        - apply (has_eq _ _ _ H1). unfold mw. rewrite Ee. las.
        - rewrite len_app, Hlocs. lia.
        - rewrite len_app, Hlocs. lia. }
      rewrite Mt. cbn [bind]. exists d, (MuTab tm). split; [reflexivity|]. split; [exact Sd|exact St].
  Qed.
End Read.

Lemma dl_blocks bm srt v is es t fs ms :
  Forall2 (ent_kind srt) is es -> has v (dl_layout es) -> 1 + len (dl_words 1 es) <= 2 ^ 31 ->
  ty_shows bm t fs (dl_tyrs 1 es ++ ms) -> (length es <= length fs)%nat ->
  exists o, dl_generateBlocks bm v (len es) t = Ok o /\ dl_v o = v /\ dl_tyr o = t
    /\ dl_shows bm o (map snd is) (map fst is) (firstn (length es) fs).
Proof.
  intros HF Hv HL Ht Hf. pose proof (dl_bounds v es Hv) as B.
  pose proof (Forall2_len _ _ _ HF) as Le.
  destruct (mapM_seq (dl_one bm v (len es) t) (fun k d => exists mi ei, nth_error is k = Some (mi, ei)
              /\ en_shows bm (fst d) ei /\ mult_shows bm (snd d) mi) (length es) 1 0) as (rs & Mr & Lr & Rr).
  { intros k Hk. destruct (nth_error es k) as [e|] eqn:Ee; [|apply nth_error_None in Ee; lia].
    destruct (Forall2_nth _ _ _ _ _ HF Ee) as ([mi ei] & Hi & Ki).
    destruct (nth_split_len _ _ _ Ee) as (e1 & e2 & E & L1).
    destruct (dl_one_has bm srt v is es t fs ms HF Hv Ht e1 e e2 (1 + Z.of_nat k) mi ei E) as (d & m & Hd & S1 & S2); [unfold len; lia|exact Ki|].
    exists (d, m). split; [exact Hd|]. exists mi, ei. cbn [Nat.add fst snd]. auto. }
  destruct Ht as (_ & Ef & _). unfold dl_generateBlocks.
  replace (Z.to_nat (len es)) with (length es) by (unfold len; lia). rewrite Mr. cbn [bind]. rewrite Ef.
  destruct (Z.ltb_spec (len fs) (len es)); [unfold len in *; lia|].
  eexists. split; [reflexivity|]. split; [reflexivity|]. split; [reflexivity|].
  assert (Lm : len (map snd is) = len es) by (rewrite len_map; unfold len; lia).
  assert (Gen : forall A (l : list A) k x, nth_error l k = Some x -> length l = length es ->
            (_ <- check bm (bl_verify (len es) (Z.of_nat k + 1)) ;; at_ l (Z.of_nat k + 1)) = Ok x).
  { intros A l k x Hk Ll. pose proof (nth_error_len _ _ _ Hk) as Bk. unfold bl_verify. pose proof (len_nonneg (dl_words 1 es)).
    assert (Z.of_nat k < len es) by (unfold len in *; lia). rewrite u64_small by lia. rewrite check_verifyIndex by lia. cbn [bind].
    apply (at_has _ k); [exact Hk|reflexivity|]. unfold len in *. lia. }
  unfold dl_shows, dl_NR, dl_distribution, dl_multiplicity, dl_frame. cbn [dl_nr dl_data dl_mults dl_frames].
  split; [lia|]. split; [|split; [|split]].
  - intros k e Hk. rewrite nth_error_map in Hk. destruct (nth_error is k) as [[mi ei]|] eqn:Ei; [|discriminate]. injection Hk as <-.
    pose proof (nth_error_len _ _ _ Ei) as Bk. destruct (nth_error rs k) as [d|] eqn:Er; [|apply nth_error_None in Er; unfold len in *; lia].
    destruct (Rr k d Er) as (mi' & ei' & Ei' & S1 & S2). cbn [Nat.add] in Ei'. rewrite Ei in Ei'. injection Ei' as <- <-.
    exists (fst d). split; [|exact S1]. apply Gen; [rewrite nth_error_map, Er; reflexivity|rewrite map_length; exact Lr].
  - intros k e Hk. rewrite nth_error_map in Hk. destruct (nth_error is k) as [[mi ei]|] eqn:Ei; [|discriminate]. injection Hk as <-.
    pose proof (nth_error_len _ _ _ Ei) as Bk. destruct (nth_error rs k) as [d|] eqn:Er; [|apply nth_error_None in Er; unfold len in *; lia].
    destruct (Rr k d Er) as (mi' & ei' & Ei' & S1 & S2). cbn [Nat.add] in Ei'. rewrite Ei in Ei'. injection Ei' as <- <-.
    exists (snd d). split; [|exact S2]. apply Gen; [rewrite nth_error_map, Er; reflexivity|rewrite map_length; exact Lr].
  - intros k f Hk. apply Gen; [exact Hk|]. rewrite firstn_length. lia.
  - intros D i Hi. assert (X : check bm (bl_verify (len es) i) = Throw OutOfRange).
    { unfold bl_verify, check, verifyIndex, throw_if. rewrite D. destruct ((u64 i <? 1) || (len es <? u64 i)) eqn:E; [reflexivity|lia]. }
    rewrite X. auto.
Qed.

Lemma dl_tyrs_ok srt is es fs b : Forall2 (ent_kind srt) is es ->
  Forall2 (fun f m => f = CentreOfMass -> m <> MNum 0) fs (map fst is) ->
  1 <= b -> b + len (dl_words b es) + 100 < 2 ^ 31 -> Forall2 ty_ok fs (dl_tyrs b es).
Proof.
  intros HF. revert fs b. induction HF as [|[mi ei] e is es [_ Hm] _ IH]; intros [|f fs] b H2 Hb HB; cbn [map fst] in H2; inversion H2; subst; [constructor|].
  cbn [dl_tyrs]. rewrite dl_words_cons, len_app in HB. cbn [fst snd] in Hm.
  pose proof (len_nonneg (dl_fun e b)). pose proof (len_nonneg (dl_words (b + len (dl_fun e b)) es)).
  constructor.
  - destruct mi as [n'|nbt int x y], (fst e) as [n|w]; try contradiction; split; try lia; intros Hcm; try lia.
    destruct Hm as [-> Hn]. intros ->. apply (H3 Hcm). reflexivity.
  - apply IH; auto; lia.
Qed.

(** Building a DLW block and reading the words of the DLW and TYR blocks. *)
Lemma dl_round_trip srt is :
  eqb_sort_contract srt -> Forall (fun i => mult_valid (fst i) /\ en_valid srt (snd i)) is ->
  exists es, Forall2 (ent_sized srt) is es
  /\ forall bm fs, 101 + len (dl_words 1 es) < 2 ^ 31 -> len es + len (dl_words 1 es) < 2 ^ 31 ->
     Forall2 (fun f m => f = CentreOfMass -> m <> MNum 0) fs (map fst is) ->
     exists ds ms o lt, mapM (en_of bm srt) (map snd is) = Ok ds /\ mapM (mult_of bm) (map fst is) = Ok ms
       /\ dl_of bm ds ms fs = Ok o
       /\ content (dl_v o) (dl_layout es) /\ content (ty_v (dl_tyr o)) lt /\ len lt = len is
       /\ dl_shows bm o (map snd is) (map fst is) fs
       /\ forall bm' v vt, has v (dl_layout es) -> has vt lt ->
            exists t o', ty_make bm' vt (len is) = Ok t
              /\ dl_make bm' v (vbeg v + len is) t (len is) = Ok o'
              /\ dl_v o' = v /\ dl_tyr o' = t
              /\ dl_shows bm' o' (map snd is) (map fst is) fs.
Proof.
  intros Hsrt HV. destruct (ent_kinds srt is Hsrt HV) as (es & HK & HZ). exists es. split; [exact HZ|].
  intros bm fs HL HL2 Hfs. pose proof (len_nonneg (dl_words 1 es)) as Nw. pose proof (len_nonneg es) as Ne.
  pose proof (Forall2_len _ _ _ HK) as Le. pose proof (Forall2_len _ _ _ Hfs) as Lf. rewrite map_length in Lf.
  destruct (ent_kinds_of bm srt is es HK) as (ds & ms & M1 & M2 & L1 & L2 & F); [unfold max_words; lia|].
  pose proof (dl_tyrs_ok srt is es fs 1 HK Hfs ltac:(lia) ltac:(lia)) as Ht.
  assert (G : ty_generateXSS fs (dl_tyrs 1 es) = Ok (ty_signs fs (dl_tyrs 1 es))).
  { unfold ty_generateXSS. replace (len fs =? len (dl_tyrs 1 es)) with true; [reflexivity|]. symmetry. unfold len. rewrite length_dl_tyrs. lia. }
  assert (Lt : len (ty_signs fs (dl_tyrs 1 es)) = len is).
  { rewrite (ty_signs_ok _ _ Ht), len_map. unfold len. rewrite combine_length, length_dl_tyrs. lia. }
  assert (Eis : len is = len es) by (unfold len; lia).
  assert (Efs : len fs = len is) by (unfold len; lia).
  assert (Ct0 : content (own (ty_signs fs (dl_tyrs 1 es))) (ty_signs fs (dl_tyrs 1 es))) by (apply own_content; unfold max_words; lia).
  destruct (ty_round_trip bm _ fs _ _ Ht G (content_has _ _ Ct0)) as [_ Hof].
  destruct Hof as (t & Ot & Ct & St); [unfold max_words; lia|].
  assert (C : content (own (dl_layout es)) (dl_layout es)) by (apply own_content; rewrite len_dl_layout; unfold max_words; lia).
  destruct (dl_blocks bm srt _ is es t fs [] HK (content_has _ _ C)) as (o & Go & Vo & To & So); [lia|rewrite app_nil_r; exact St|lia|].
  rewrite firstn_all2 in So by lia.
  exists ds, ms, o, (ty_signs fs (dl_tyrs 1 es)). split; [exact M1|]. split; [exact M2|]. split; [|split; [|split; [|split; [|split]]]].
  - unfold dl_of. rewrite (dl_generate_ok bm es ds ms L1 L2 F) by lia. cbn [bind fst snd]. rewrite Ot. cbn [bind].
    replace (len ds) with (len es) by (unfold len; lia). rewrite u32_small by lia. exact Go.
  - rewrite Vo. exact C.
  - rewrite To. exact Ct.
  - exact Lt.
  - exact So.
  - intros bm' v vt Hv Hvt. destruct (ty_round_trip bm' vt fs _ _ Ht G Hvt) as [(t' & Mt & _ & St') _].
    destruct (dl_blocks bm' srt v is es t' fs [] HK Hv) as (o' & Go' & Vo' & To' & So'); [lia|rewrite app_nil_r; exact St'|lia|].
    rewrite firstn_all2 in So' by lia. exists t', o'. rewrite <- Efs at 1. split; [exact Mt|]. split; [|auto].
    unfold dl_make. replace (vbeg v + len is - vbeg v) with (len is) by lia. rewrite s64_small by lia.
    destruct (Z.ltb_spec (len is) (len is)); [lia|]. cbn [throw_if bind]. rewrite Eis. exact Go'.
Qed.
