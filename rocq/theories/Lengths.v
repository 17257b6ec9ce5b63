(** Arguments of constructors that must have the same length: what "agree" means for each kind of
    component, how many words it takes, and the lemmas behind C49. *)
From Coq Require Import ZArith Bool List Lia Permutation.
From Coq Require Import ZifyBool ZifyNat.
From Verif Require Import EnergyDist.
Import ListNotations.
Open Scope Z_scope.

(** * Specification *)

(** [accepts o P]: the constructor call [o] succeeds when [P] holds and throws when it does not. *)
Definition accepts {A} (o : outcome A) (P : Prop) : Prop :=
  (P -> exists x, o = Ok x) /\ (~ P -> o = Throw StdException).

(** Sum of [f] over a list. *)
Definition total {A} (f : A -> Z) (l : list A) : Z := fold_right (fun a n => f a + n) 0 l.

(** A tabulated distribution: the probabilities and the further columns are as long as the values;
    it takes 2 words and as many columns as there are arrays. *)
Definition tq_agree (d : tq_in) : Prop :=
  Forall (fun a => len a = len (tq_x d)) (tq_pdf d :: tq_cdf d :: tq_data d).
Definition tq_size (d : tq_in) : Z := 2 + (3 + len (tq_data d)) * len (tq_x d).
Definition tw_agree (t : tw_in) : Prop := len (tw_pdf t) = len (tw_x t) /\ len (tw_cdf t) = len (tw_x t).
Definition tw_size (t : tw_in) : Z := 2 + 3 * len (tw_x t).
(** A list of distributions for one incident energy. *)
Definition ea_agree (d : ea_in) : Prop := Forall tw_agree (ea_dists d).
Definition ea_size (d : ea_in) : Z := 2 + 4 * len (ea_dists d) + total tw_size (ea_dists d).
Definition ae_agree (d : ae_in) : Prop := Forall tq_agree (ae_dists d).
Definition ae_size (d : ae_in) : Z := 2 + 2 * len (ae_dists d) + total tq_size (ae_dists d).
(** Numbers that fit their types and words that fit in a table. *)
Definition ea_ranges (d : ea_in) : Prop :=
  0 <= ea_interp d < 2 ^ 31 /\ Forall tw_valid (ea_dists d) /\ 1 <= ea_locb d /\ ea_locb d + ea_size d <= 2 ^ 31.
Definition ae_ranges (d : ae_in) : Prop :=
  0 <= ae_interp d < 2 ^ 31 /\ Forall tq_valid (ae_dists d) /\ 1 <= ae_locb d /\ ae_locb d + ae_size d <= 2 ^ 31.

(** The arrays of an energy distribution that must have the same length do. *)
Definition ed_agree (i : ed_in) : Prop :=
  match i with
  | IEqui nbt int _ => len int = len nbt
  | IDiscrete _ _ _ _ | ILevel _ _ _ _ | ITwoBody _ _ _ _ => True
  | INBody _ _ _ _ _ x p c => len p = len x /\ len c = len x
  | IOutgoing nbt int ds _ | IKalbach nbt int ds _ => len int = len nbt /\ Forall tq_agree ds
  | IEnergyAngle nbt int ds _ => len int = len nbt /\ Forall ea_agree ds
  | IAngleEnergy nbt int ds _ => len int = len nbt /\ Forall ae_agree ds
  | IGeneralEvap nbt int e t _ | IMaxwell nbt int e t _ | IEvaporation nbt int e t _ => len int = len nbt /\ len t = len e
  | IWatt nbta inta xa ya nbtb intb xb yb _ =>
      (len inta = len nbta /\ len ya = len xa) /\ (len intb = len nbtb /\ len yb = len xb)
  end.
(** The number of words it takes. *)
Definition ed_size (i : ed_in) : Z :=
  match i with
  | IEqui nbt _ ds => 3 + 2 * len nbt + len ds + total (fun d => len (snd d)) ds
  | IDiscrete _ _ _ _ | ILevel _ _ _ _ | ITwoBody _ _ _ _ => 2
  | INBody _ _ _ _ _ x _ _ => 4 + 3 * len x
  | IOutgoing nbt _ ds _ | IKalbach nbt _ ds _ => 2 + 2 * len nbt + 2 * len ds + total tq_size ds
  | IEnergyAngle nbt _ ds _ => 2 + 2 * len nbt + 2 * len ds + total ea_size ds
  | IAngleEnergy nbt _ ds _ => 2 + 2 * len nbt + 2 * len ds + total ae_size ds
  | IGeneralEvap nbt _ e _ bins => 3 + 2 * len nbt + 2 * len e + len bins
  | IMaxwell nbt _ e _ _ | IEvaporation nbt _ e _ _ => 3 + 2 * len nbt + 2 * len e
  | IWatt nbta _ xa _ nbtb _ xb _ _ => 5 + 2 * len nbta + 2 * len xa + 2 * len nbtb + 2 * len xb
  end.
(** Argument ranges: energy grids are not empty, integers fit their types and are represented by
    doubles, all the energies of equiprobable bins have the same number of bins, the words fit. *)
Definition ed_ranges (i : ed_in) : Prop :=
  match i with
  | IEqui _ _ ds => Forall (fun d => fst d <> S754_nan) ds /\ eq_valid ds
  | IDiscrete _ _ lp _ => 0 <= lp < 2 ^ 32
  | ILevel _ _ _ _ | ITwoBody _ _ _ _ => True
  | INBody _ _ npsx _ interp _ _ _ => 0 <= npsx < 2 ^ 31 /\ 0 <= interp < 2 ^ 31
  | IOutgoing nbt int ds _ | IKalbach nbt int ds _ => Forall tq_valid ds /\ exact nbt /\ exact int /\ ds <> []
  | IEnergyAngle nbt int ds _ => Forall ea_ranges ds /\ exact nbt /\ exact int /\ ds <> []
  | IAngleEnergy nbt int ds _ => Forall ae_ranges ds /\ exact nbt /\ exact int /\ ds <> []
  | IGeneralEvap _ _ e _ _ | IMaxwell _ _ e _ _ | IEvaporation _ _ e _ _ => e <> []
  | IWatt _ _ xa _ _ _ _ _ _ => xa <> []
  end /\ 1 <= ed_locb i /\ ed_locb i + ed_size i <= 2 ^ 31.

(** * Lemmas *)

(** Either every element is accepted or the first one that is not throws. *)
Lemma mapM_accepts {A B} (f : A -> outcome B) (ok : A -> Prop) l :
  (forall a, In a l -> (ok a /\ exists b, f a = Ok b) \/ (~ ok a /\ f a = Throw StdException)) ->
  (Forall ok l /\ exists bs, mapM f l = Ok bs) \/ (~ Forall ok l /\ mapM f l = Throw StdException).
Proof.
  induction l as [|a l IH]; intros H.
  - left. split; [constructor|]. exists []. reflexivity.
  - destruct (H a (or_introl eq_refl)) as [(K & b & E) | (K & E)]; cbn [mapM]; rewrite E; cbn [bind].
    + destruct IH as [(F & bs & M) | (F & M)]; [intros x X; apply H; right; exact X| |]; rewrite M; cbn [bind].
      * left. split; [constructor; assumption|]. eauto.
      * right. split; [|reflexivity]. intros X. inversion X; contradiction.
    + right. split; [|reflexivity]. intros X. inversion X; contradiction.
Qed.

Lemma mapM_dec {A} (ok : A -> Prop) l : (forall a, ok a \/ ~ ok a) -> Forall ok l \/ ~ Forall ok l.
Proof.
  intros D. induction l as [|a l IH]; [left; constructor|]. destruct (D a) as [K|K]; [|right; intros X; inversion X; contradiction].
  destruct IH; [left; constructor; assumption|right; intros X; inversion X; contradiction].
Qed.

Lemma tq_agree_all d : tq_agree d <-> all_len (len (tq_x d)) (tq_x d :: tq_pdf d :: tq_cdf d :: tq_data d).
Proof. unfold tq_agree, all_len. split; [intros H; constructor; auto|intros H; inversion H; assumption]. Qed.
Lemma tq_agree_dec d : tq_agree d \/ ~ tq_agree d.
Proof. apply mapM_dec. intros a. lia. Qed.
Lemma tw_agree_dec d : tw_agree d \/ ~ tw_agree d.
Proof. unfold tw_agree. lia. Qed.

Lemma tq_words_ok d : tq_agree d -> exists w, tq_words d = Ok w /\ len w = tq_size d.
Proof.
  intros H. apply tq_agree_all in H. unfold tq_words, tp_generateXSS. rewrite (cd_generateXSS_ok _ _ H). cbn [bind].
  eexists. split; [reflexivity|]. rewrite len_cons. unfold cd_layout. rewrite len_cons, (len_concat (len (tq_x d))) by exact H.
  rewrite !len_cons. unfold tq_size. lia.
Qed.
Lemma tq_words_bad d : ~ tq_agree d -> tq_words d = Throw StdException.
Proof.
  intros H. unfold tq_words, tp_generateXSS, cd_generateXSS. rewrite cd_append_ragged; [reflexivity|].
  intros X. apply H, tq_agree_all, X.
Qed.
Lemma tw_words_ok t : tw_agree t -> exists w, tw_words t = Ok w /\ len w = tw_size t.
Proof.
  intros (H1 & H2). unfold tw_words, tp_generateXSS.
  assert (H : all_len (len (tw_x t)) [tw_x t; tw_pdf t; tw_cdf t]) by (repeat (constructor; auto)).
  rewrite (cd_generateXSS_ok _ _ H). cbn [bind].
  eexists. split; [reflexivity|]. rewrite len_cons. unfold cd_layout. rewrite len_cons, (len_concat (len (tw_x t))) by exact H.
  rewrite !len_cons, len_nil. unfold tw_size. lia.
Qed.
Lemma tw_words_bad t : ~ tw_agree t -> tw_words t = Throw StdException.
Proof.
  intros H. unfold tw_words, tp_generateXSS, cd_generateXSS. rewrite cd_append_ragged; [reflexivity|].
  intros X. apply H. inversion X as [|? ? _ X1]; subst. inversion X1 as [|? ? E1 X2]; subst. inversion X2 as [|? ? E2 _]; subst. split; auto.
Qed.

Lemma tq_list ds : Forall tq_agree ds -> exists ws, Forall2 (fun d w => tq_words d = Ok w) ds ws
  /\ mapM tq_elem ds = Ok (tq_es ds ws) /\ len (concat ws) = total tq_size ds /\ len ws = len ds.
Proof.
  induction 1 as [|d ds H F IH].
  - exists []. repeat split; constructor.
  - destruct IH as (ws & F2 & M & L & N). destruct (tq_words_ok d H) as (w & W & Lw). exists (w :: ws).
    split; [constructor; assumption|]. split; [|split].
    + cbn [mapM]. unfold tq_elem at 1. rewrite W. cbn [bind]. rewrite M. reflexivity.
    + cbn [concat total fold_right]. rewrite len_app. fold (total tq_size ds). lia.
    + rewrite !len_cons. lia.
Qed.
Lemma tw_list ts : Forall tw_agree ts -> exists ws, tws ts ws
  /\ mapM tw_elem ts = Ok (tw_es ts ws) /\ len (concat ws) = total tw_size ts /\ len ws = len ts.
Proof.
  intros H. assert (X : exists ws, tws ts ws /\ len (concat ws) = total tw_size ts /\ len ws = len ts).
  { induction H as [|d ds H F IH].
    - exists []. repeat split; constructor.
    - destruct IH as (ws & F2 & L & N). destruct (tw_words_ok d H) as (w & W & Lw). exists (w :: ws).
      split; [constructor; assumption|]. split.
      + cbn [concat total fold_right]. rewrite len_app. fold (total tw_size ds). lia.
      + rewrite !len_cons. lia. }
  destruct X as (ws & F & L). exists ws. split; [exact F|]. split; [apply tws_mapM; exact F|exact L].
Qed.
Lemma tq_bad ds : ~ Forall tq_agree ds -> mapM tq_elem ds = Throw StdException.
Proof.
  intros H. destruct (mapM_accepts tq_elem tq_agree ds) as [(X & _) | (_ & X)]; [|contradiction|exact X].
  intros a _. destruct (tq_agree_dec a) as [K|K]; [left|right]; split; auto; unfold tq_elem.
  - destruct (tq_words_ok a K) as (w & -> & _). eexists; reflexivity.
  - rewrite (tq_words_bad a K). reflexivity.
Qed.
Lemma tw_bad ds : ~ Forall tw_agree ds -> mapM tw_elem ds = Throw StdException.
Proof.
  intros H. destruct (mapM_accepts tw_elem tw_agree ds) as [(X & _) | (_ & X)]; [|contradiction|exact X].
  intros a _. destruct (tw_agree_dec a) as [K|K]; [left|right]; split; auto; unfold tw_elem.
  - destruct (tw_words_ok a K) as (w & -> & _). eexists; reflexivity.
  - rewrite (tw_words_bad a K). reflexivity.
Qed.

Lemma total_pos {A} (f : A -> Z) l : (forall a, 0 <= f a) -> 0 <= total f l.
Proof. intros H. induction l as [|a l IH]; cbn [total fold_right]; [lia|]. fold (total f l). specialize (H a). lia. Qed.
Lemma tq_size_pos d : 0 <= tq_size d.
Proof. unfold tq_size. nonneg. nia. Qed.
Lemma tw_size_pos d : 0 <= tw_size d.
Proof. unfold tw_size. nonneg. lia. Qed.

Lemma og_gen nbt int locb ds : Forall tq_agree ds -> 1 <= locb ->
  locb + (2 + 2 * len nbt + 2 * len ds + total tq_size ds) <= 2 ^ 31 ->
  (len int = len nbt -> exists l, og_generateXSS nbt int locb ds = Ok l /\ len l = 2 + 2 * len nbt + 2 * len ds + total tq_size ds)
  /\ (len int <> len nbt -> og_generateXSS nbt int locb ds = Throw StdException).
Proof.
  intros H Hb Hs. destruct (tq_list ds H) as (ws & F & M & L & N). unfold og_generateXSS. rewrite M. cbn [bind].
  destruct (tq_es_spec ds ws F) as (W1 & W2 & W3 & W4 & W5 & W6).
  assert (Hs' : ddh_b0 nbt locb (map const ws) + len (dd_bodies (ddh_b0 nbt locb (map const ws)) (map const ws)) <= 2 ^ 31).
  { rewrite len_bodies_const. unfold ddh_b0. rewrite W6. lia. }
  split; intros E.
  - pose proof (dd_generateXSS_ok nbt int locb _ _ W1 W3 E ltac:(lia) Hs') as G. eexists. split; [exact G|].
    destruct (dd_generateXSS_len nbt int locb _ _ _ 0 W2 W4 G) as [_ ->]. rewrite len_bodies_const, W6. lia.
  - exact (dd_generateXSS_ragged nbt int locb _ _ W1 W3 ltac:(lia) Hs' E).
Qed.

Lemma ea_valid_of d : ea_ranges d -> ea_agree d -> ea_valid d.
Proof.
  intros (Hi & Ht & Hb & Hs) H. destruct (tw_list _ H) as (ws & F & M & L & N).
  split; [exact Hi|]. split; [exact Ht|]. split; [exact Hb|].
  unfold ea_generateXSS. rewrite M. cbn [bind]. unfold ea_size in Hs.
  eexists. split; [apply (ea_gen_ok d ws F); try lia; nonneg; lia|].
  rewrite ea_layout_len by (symmetry; exact (Forall2_len _ _ _ F)). lia.
Qed.
Lemma ae_valid_of d : ae_ranges d -> ae_agree d -> ae_valid d.
Proof.
  intros (Hi & Ht & Hb & Hs) H. destruct (tq_list _ H) as (ws & F & M & L & N).
  split; [exact Hi|]. split; [exact Ht|]. split; [exact Hb|].
  assert (E : len (ae_layout d ws (ae_locb d)) = ae_size d).
  { rewrite ae_layout_len by (symmetry; exact (Forall2_len _ _ _ F)). unfold ae_size. lia. }
  unfold ae_generateXSS. rewrite M. cbn [bind].
  eexists. split; [apply (ae_gen_ok d ws F); try assumption; lia|]. lia.
Qed.
Lemma ea_agree_dec d : ea_agree d \/ ~ ea_agree d.
Proof. apply mapM_dec, tw_agree_dec. Qed.
Lemma ae_agree_dec d : ae_agree d \/ ~ ae_agree d.
Proof. apply mapM_dec, tq_agree_dec. Qed.

Lemma ea_elem_bad bm d : ~ ea_agree d -> ea_elem_of bm d = Throw StdException.
Proof. intros H. unfold ea_elem_of, ea_of. rewrite (tw_bad _ H). reflexivity. Qed.
Lemma ae_elem_bad bm d : ~ ae_agree d -> ae_elem bm d = Throw StdException.
Proof. intros H. unfold ae_elem, ae_of. rewrite (tq_bad _ H). reflexivity. Qed.
Lemma ea_bad bm ds : Forall ea_ranges ds -> ~ Forall ea_agree ds -> mapM (ea_elem_of bm) ds = Throw StdException.
Proof.
  intros R H. destruct (mapM_accepts (ea_elem_of bm) ea_agree ds) as [(X & _) | (_ & X)]; [|contradiction|exact X].
  intros a Ha. rewrite Forall_forall in R. destruct (ea_agree_dec a) as [K|K]; [left|right]; split; auto.
  - destruct (tw_list _ K) as (ws & F & _). destruct (ea_elem_spec bm a ws (ea_valid_of a (R _ Ha) K) F) as (w & -> & _). eauto.
  - apply ea_elem_bad. exact K.
Qed.
Lemma ae_bad bm ds : Forall ae_ranges ds -> ~ Forall ae_agree ds -> mapM (ae_elem bm) ds = Throw StdException.
Proof.
  intros R H. destruct (mapM_accepts (ae_elem bm) ae_agree ds) as [(X & _) | (_ & X)]; [|contradiction|exact X].
  intros a Ha. rewrite Forall_forall in R. destruct (ae_agree_dec a) as [K|K]; [left|right]; split; auto.
  - destruct (tq_list _ K) as (ws & F & _). destruct (ae_elem_spec bm a ws (ae_valid_of a (R _ Ha) K) F) as (w & -> & _). eauto.
  - apply ae_elem_bad. exact K.
Qed.

Lemma Forall_and2 {A} (P Q R : A -> Prop) l : (forall a, P a -> Q a -> R a) -> Forall P l -> Forall Q l -> Forall R l.
Proof. intros H F G. rewrite Forall_forall in *. auto. Qed.

Lemma ea_total ds fs : Forall ea_ranges ds -> Forall ea_agree ds ->
  Forall2 (fun d f => exists ws, tws (ea_dists d) ws /\ f = ea_layout d ws) ds fs ->
  forall b, len (dd_bodies b fs) = total ea_size ds.
Proof.
  intros R A F. induction F as [|d f ds fs (ws & W & ->) F IH]; intros b; [reflexivity|].
  inversion R; inversion A; subst. cbn [dd_bodies total fold_right]. rewrite len_app, IH by assumption. f_equal.
  rewrite ea_layout_len by (symmetry; exact (Forall2_len _ _ _ W)).
  match goal with H : ea_agree d |- _ => destruct (tw_list _ H) as (ws' & W' & _ & L & N) end.
  rewrite (tws_fun _ _ _ W W'). unfold ea_size. lia.
Qed.
Lemma ae_total ds fs : Forall ae_ranges ds -> Forall ae_agree ds ->
  Forall2 (fun d f => exists ws, Forall2 (fun d w => tq_words d = Ok w) (ae_dists d) ws /\ f = ae_layout d ws) ds fs ->
  forall b, len (dd_bodies b fs) = total ae_size ds.
Proof.
  intros R A F. induction F as [|d f ds fs (ws & W & ->) F IH]; intros b; [reflexivity|].
  inversion R; inversion A; subst. cbn [dd_bodies total fold_right]. rewrite len_app, IH by assumption. f_equal.
  rewrite ae_layout_len by (symmetry; exact (Forall2_len _ _ _ W)).
  match goal with H : ae_agree d |- _ => destruct (tq_list _ H) as (ws' & W' & _ & L & N) end.
  rewrite (Forall2_words_fun _ _ _ W W'). unfold ae_size. lia.
Qed.

Lemma ead_gen bm nbt int locb ds : Forall ea_ranges ds -> Forall ea_agree ds -> 1 <= locb ->
  locb + (2 + 2 * len nbt + 2 * len ds + total ea_size ds) <= 2 ^ 31 ->
  (len int = len nbt -> exists l, ead_generateXSS bm nbt int locb ds = Ok l /\ len l = 2 + 2 * len nbt + 2 * len ds + total ea_size ds)
  /\ (len int <> len nbt -> ead_generateXSS bm nbt int locb ds = Throw StdException).
Proof.
  intros R A Hb Hs. destruct (ea_list bm ds (Forall_and2 _ _ _ _ ea_valid_of R A)) as (es & fs & M & V & F & W1 & W2 & W3 & W4 & W5).
  unfold ead_generateXSS. rewrite M. cbn [bind]. pose proof (ea_total ds fs R A F) as T.
  assert (Hs' : ddh_b0 nbt locb fs + len (dd_bodies (ddh_b0 nbt locb fs) fs) <= 2 ^ 31).
  { rewrite T. unfold ddh_b0. lia. }
  split; intros E.
  - pose proof (dd_generateXSS_ok nbt int locb _ _ W1 W3 E ltac:(lia) Hs') as G. eexists. split; [exact G|].
    destruct (dd_generateXSS_len nbt int locb _ _ _ 0 W2 W4 G) as [_ ->]. rewrite T. lia.
  - exact (dd_generateXSS_ragged nbt int locb _ _ W1 W3 ltac:(lia) Hs' E).
Qed.
Lemma aed_gen bm nbt int locb ds : Forall ae_ranges ds -> Forall ae_agree ds -> 1 <= locb ->
  locb + (2 + 2 * len nbt + 2 * len ds + total ae_size ds) <= 2 ^ 31 ->
  (len int = len nbt -> exists l, aed_generateXSS bm nbt int locb ds = Ok l /\ len l = 2 + 2 * len nbt + 2 * len ds + total ae_size ds)
  /\ (len int <> len nbt -> aed_generateXSS bm nbt int locb ds = Throw StdException).
Proof.
  intros R A Hb Hs. destruct (ae_list bm ds (Forall_and2 _ _ _ _ ae_valid_of R A)) as (es & fs & M & V & F & W1 & W2 & W3 & W4 & W5).
  unfold aed_generateXSS. rewrite M. cbn [bind]. pose proof (ae_total ds fs R A F) as T.
  assert (Hs' : ddh_b0 nbt locb fs + len (dd_bodies (ddh_b0 nbt locb fs) fs) <= 2 ^ 31).
  { rewrite T. unfold ddh_b0. lia. }
  split; intros E.
  - pose proof (dd_generateXSS_ok nbt int locb _ _ W1 W3 E ltac:(lia) Hs') as G. eexists. split; [exact G|].
    destruct (dd_generateXSS_len nbt int locb _ _ _ 0 W2 W4 G) as [_ ->]. rewrite T. lia.
  - exact (dd_generateXSS_ragged nbt int locb _ _ W1 W3 ltac:(lia) Hs' E).
Qed.

Lemma eq_gen_ok srt nbt int ds : length (srt ds) = length ds -> ds <> [] -> len int = len nbt ->
  exists l, eq_generateXSS srt nbt int ds = Ok l.
Proof.
  intros Ls Hne E. unfold eq_generateXSS. rewrite (id_generateXSS_ok _ _ E). cbn [bind]. rewrite <- Ls.
  destruct (srt ds) as [|[e0 b0] r] eqn:Es; [destruct ds; [congruence|discriminate]|].
  set (s := ((e0, b0) : eqb_in) :: r) in *. set (net := s32 (len b0 - 1) + 1).
  assert (Li : length (id_layout nbt int) = (1 + 2 * length nbt)%nat).
  { pose proof (len_id_layout nbt int E) as L. unfold len in L. lia. }
  assert (R : repeat (dbl 0) (2 + length s) = dbl 0 :: repeat (dbl 0) (length s) ++ [dbl 0]).
  { cbn [Nat.add repeat]. f_equal. change (dbl 0 :: repeat (dbl 0) (length s)) with (repeat (dbl 0) (S (length s))).
    replace (S (length s)) with (length s + 1)%nat by lia. rewrite repeat_app. reflexivity. }
  rewrite R. rewrite (upd_at _ (id_layout nbt int) (dbl 0) (repeat (dbl 0) (length s) ++ [dbl 0])) by (auto; lia).
  cbn [bind].
  rewrite (upd_at _ (id_layout nbt int ++ dbl (Z.of_nat (length s)) :: repeat (dbl 0) (length s)) (dbl 0) []).
  2: { las. } 2: { rewrite app_length. cbn [length]. rewrite repeat_length. lia. }
  cbn [bind].
  pose proof (eq_append_spec (id_layout nbt int ++ [dbl (Z.of_nat (length s))]) [] (repeat (dbl 0) (length s)) [dbl net] s []
    (repeat_length _ _)) as H.
  rewrite app_length in H. cbn [length] in H. rewrite Li in H.
  replace (1 + 2 * length nbt + 1 + 0)%nat with (2 + 2 * length nbt)%nat in H by lia.
  match type of H with eq_append _ _ ?x = _ =>
    match goal with |- exists l, eq_append _ _ ?y = _ => replace y with x by las end end.
  eauto.
Qed.

Lemma total_const ds n : Forall (fun d : eqb_in => len (snd d) = n) ds -> total (fun d => len (snd d)) ds = len ds * n.
Proof.
  induction 1 as [|d ds H F IH]; [reflexivity|]. cbn [total fold_right]. fold (total (fun d : eqb_in => len (snd d)) ds). rewrite len_cons, IH. lia.
Qed.

Lemma td_gen nbt int x y : len int = len nbt -> len y = len x ->
  td_generateXSS nbt int x y = Ok (td_layout nbt int x y) /\ len (td_layout nbt int x y) = 2 + 2 * len nbt + 2 * len x.
Proof.
  intros H1 H2. destruct (td_accepts nbt int x y) as [A _]. destruct A as (l & G); [unfold len in *; lia|].
  destruct (td_generateXSS_inv _ _ _ _ _ G) as (_ & _ & El). rewrite El in G. split; [exact G|]. apply len_td_layout; assumption.
Qed.
Lemma td_gen_bad nbt int x y : ~ (len int = len nbt /\ len y = len x) -> td_generateXSS nbt int x y = Throw StdException.
Proof. intros H. apply td_accepts. unfold len in *. lia. Qed.

(** The words of an energy distribution whose arrays agree, and their number. *)
Lemma ed_gen bm srt i : eqb_sort_contract srt -> ed_ranges i -> ed_agree i ->
  exists l, ed_generate bm srt i = Ok l /\ len l = ed_size i.
Proof.
  intros Hsrt (Ha & Hb & Hs) A.
  destruct i as [nbt int ds|lo hi lp eg|lo hi c1 c2|lo hi c1 c2|lo hi npsx ap itp x p c|nbt int ds locb|nbt int ds locb
                |nbt int ds locb|nbt int ds locb|nbt int e t bins|nbt int e t u|nbt int e t u
                |nbta inta xa ya nbtb intb xb yb u]; cbn [ed_generate ed_size ed_agree ed_locb] in *.
  - destruct Ha as (Hn & Hne & net & Hnet & Hbins).
    destruct (Hsrt ds Hn) as [P S]. assert (Ls : length (srt ds) = length ds) by (symmetry; apply Permutation_length; exact P).
    destruct (eq_gen_ok srt nbt int ds Ls Hne A) as (l & G). exists l. split; [exact G|].
    destruct (eq_generateXSS_inv _ _ _ _ _ Ls G) as (_ & d0 & r & Es & El). rewrite El.
    assert (B : Forall (fun d : eqb_in => len (snd d) = net) (srt ds)) by (eapply Permutation_Forall; [exact P|exact Hbins]).
    pose proof (total_const _ _ Hbins) as T. rewrite T.
    assert (D0 : len (snd d0) = net) by (rewrite Es in B; inversion B; assumption).
    rewrite D0. replace (s32 (net - 1) + 1) with net by (rewrite s32_small by lia; lia).
    rewrite (eq_len nbt int net (srt ds) A B). unfold len in *. rewrite Ls. lia.
  - eexists; split; reflexivity.
  - eexists; split; reflexivity.
  - eexists; split; reflexivity.
  - destruct A as [A1 A2]. unfold nb_generateXSS.
    assert (H : all_len (len x) [x; p; c]) by (repeat (constructor; auto)).
    rewrite (cd_generateXSS_ok _ _ H). cbn [bind]. eexists. split; [reflexivity|].
    rewrite len_app. unfold cd_layout. rewrite !len_cons, len_nil. rewrite (len_concat (len x)) by exact H. rewrite ?len_cons, ?len_nil. unfold len; cbn [length]; lia.
  - destruct A as [A1 A2]. apply (og_gen nbt int locb ds); assumption.
  - destruct A as [A1 A2]. apply (og_gen nbt int locb ds); assumption.
  - destruct A as [A1 A2]. destruct Ha as (R & _). apply (ead_gen bm nbt int locb ds); assumption.
  - destruct A as [A1 A2]. destruct Ha as (R & _). apply (aed_gen bm nbt int locb ds); assumption.
  - destruct A as [A1 A2]. destruct (td_gen _ _ _ _ A1 A2) as [G L]. unfold ge_generateXSS. rewrite G. cbn [bind].
    eexists. split; [reflexivity|]. rewrite len_app, len_cons, L. lia.
  - destruct A as [A1 A2]. destruct (td_gen _ _ _ _ A1 A2) as [G L]. unfold ev_generateXSS. rewrite G. cbn [bind].
    eexists. split; [reflexivity|]. rewrite len_app, len_cons, len_nil, L. lia.
  - destruct A as [A1 A2]. destruct (td_gen _ _ _ _ A1 A2) as [G L]. unfold ev_generateXSS. rewrite G. cbn [bind].
    eexists. split; [reflexivity|]. rewrite len_app, len_cons, len_nil, L. lia.
  - destruct A as ((A1 & A2) & (A3 & A4)). destruct (td_gen _ _ _ _ A1 A2) as [G L]. destruct (td_gen _ _ _ _ A3 A4) as [G' L'].
    rewrite G. cbn [bind]. rewrite G'. cbn [bind]. eexists. split; [reflexivity|]. unfold wa_generateXSS.
    rewrite !len_app, len_cons, len_nil, L, L'. lia.
Qed.

(** The ranges and agreeing lengths make valid arguments (the hypothesis of the round trips C13-C16). *)
Lemma ed_valid_of srt i : eqb_sort_contract srt -> ed_ranges i -> ed_agree i -> ed_valid srt i.
Proof.
  intros Hsrt R A. destruct (ed_gen Release srt i Hsrt R A) as (l & G & L). destruct R as (Ha & Hb & Hs). split.
  - destruct i; cbn [ed_args ed_agree] in *; try assumption.
    + destruct Ha as (R & X). split; [|exact X]. destruct A as [_ A]. exact (Forall_and2 _ _ _ _ ea_valid_of R A).
    + destruct Ha as (R & X). split; [|exact X]. destruct A as [_ A]. exact (Forall_and2 _ _ _ _ ae_valid_of R A).
  - exists Release, l. rewrite L. auto.
Qed.

Lemma ed_bad bm srt i : ed_ranges i -> ~ ed_agree i -> ed_of bm srt i = Throw StdException.
Proof.
  intros (Ha & Hb & Hs) A.
  destruct i as [nbt int ds|lo hi lp eg|lo hi c1 c2|lo hi c1 c2|lo hi npsx ap itp x p c|nbt int ds locb|nbt int ds locb
                |nbt int ds locb|nbt int ds locb|nbt int e t bins|nbt int e t u|nbt int e t u
                |nbta inta xa ya nbtb intb xb yb u]; cbn [ed_of ed_size ed_agree ed_locb] in *.
  - unfold eq_of, eq_generateXSS. rewrite (id_generateXSS_ragged _ _ A). reflexivity.
  - exfalso. exact (A Logic.I).
  - exfalso. exact (A Logic.I).
  - exfalso. exact (A Logic.I).
  - unfold nb_generateXSS, cd_generateXSS. rewrite cd_append_ragged; [reflexivity|]. intros X. apply A.
    inversion X as [|? ? _ X1]; subst. inversion X1 as [|? ? E1 X2]; subst. inversion X2 as [|? ? E2 _]; subst. split; auto.
  - destruct (mapM_dec tq_agree ds tq_agree_dec) as [K|K].
    + assert (A1 : len int <> len nbt) by tauto. destruct (og_gen nbt int locb ds K Hb Hs) as [_ G]. specialize (G A1).
      unfold og_generateXSS in G. unfold og_of, dd_of. destruct (tq_list ds K) as (ws & _ & M & _). rewrite M in *. cbn [bind] in *.
      rewrite G. reflexivity.
    + unfold og_of. rewrite (tq_bad _ K). reflexivity.
  - destruct (mapM_dec tq_agree ds tq_agree_dec) as [K|K].
    + assert (A1 : len int <> len nbt) by tauto. destruct (og_gen nbt int locb ds K Hb Hs) as [_ G]. specialize (G A1).
      unfold og_generateXSS in G. unfold og_of, dd_of. destruct (tq_list ds K) as (ws & _ & M & _). rewrite M in *. cbn [bind] in *.
      rewrite G. reflexivity.
    + unfold og_of. rewrite (tq_bad _ K). reflexivity.
  - destruct Ha as (R & _). destruct (mapM_dec ea_agree ds ea_agree_dec) as [K|K].
    + assert (A1 : len int <> len nbt) by tauto. destruct (ead_gen bm nbt int locb ds R K Hb Hs) as [_ G]. specialize (G A1).
      unfold ead_generateXSS in G. unfold ead_of, dd_of.
      destruct (ea_list bm ds (Forall_and2 _ _ _ _ ea_valid_of R K)) as (es & fs & M & _). rewrite M in *. cbn [bind] in *.
      rewrite G. reflexivity.
    + unfold ead_of. rewrite (ea_bad bm _ R K). reflexivity.
  - destruct Ha as (R & _). destruct (mapM_dec ae_agree ds ae_agree_dec) as [K|K].
    + assert (A1 : len int <> len nbt) by tauto. destruct (aed_gen bm nbt int locb ds R K Hb Hs) as [_ G]. specialize (G A1).
      unfold aed_generateXSS in G. unfold aed_of, dd_of.
      destruct (ae_list bm ds (Forall_and2 _ _ _ _ ae_valid_of R K)) as (es & fs & M & _). rewrite M in *. cbn [bind] in *.
      rewrite G. reflexivity.
    + unfold aed_of. rewrite (ae_bad bm _ R K). reflexivity.
  - unfold ge_of, ge_generateXSS. rewrite (td_gen_bad _ _ _ _ A). reflexivity.
  - unfold ev_of, ev_generateXSS. rewrite (td_gen_bad _ _ _ _ A). reflexivity.
  - unfold ev_of, ev_generateXSS. rewrite (td_gen_bad _ _ _ _ A). reflexivity.
  - assert (C : (len inta = len nbta /\ len ya = len xa) \/ ~ (len inta = len nbta /\ len ya = len xa)) by lia.
    destruct C as [C|C].
    + destruct C as [C1 C2]. destruct (td_gen _ _ _ _ C1 C2) as [G L].
      assert (B : len (td_layout nbta inta xa ya) < max_words) by (rewrite L; unfold max_words; nonneg; lia).
      destruct (td_of_round_trip bm _ _ _ _ _ G B) as (o & E & _). rewrite E. cbn [bind].
      assert (D : ~ (len intb = len nbtb /\ len yb = len xb)) by tauto.
      unfold td_of. rewrite (td_gen_bad _ _ _ _ D). reflexivity.
    + unfold td_of. rewrite (td_gen_bad _ _ _ _ C). reflexivity.
Qed.

Lemma ed_accepts bm srt i : eqb_sort_contract srt -> ed_ranges i -> accepts (ed_of bm srt i) (ed_agree i).
Proof.
  intros Hsrt R. split; [|apply ed_bad; exact R]. intros A.
  destruct (ed_kind_exists srt i Hsrt (ed_valid_of srt i Hsrt R A)) as (f & lo & hi & K & _).
  destruct K as (_ & _ & K & _). destruct (K bm) as (o & E & _). eauto.
Qed.

Lemma ed_agree_dec i : ed_agree i \/ ~ ed_agree i.
Proof.
  assert (K : forall P Q : Prop, (P \/ ~ P) -> (Q \/ ~ Q) -> (P /\ Q) \/ ~ (P /\ Q)) by tauto.
  destruct i; cbn [ed_agree]; try lia; apply K; try lia; apply mapM_dec; auto using tq_agree_dec, ea_agree_dec, ae_agree_dec.
Qed.

(** ** Other components *)

Lemma accepts_iff {A} (o : outcome A) P Q : (P <-> Q) -> accepts o P -> accepts o Q.
Proof. intros H [A1 A2]. split; intros X; [apply A1|apply A2]; tauto. Qed.
Lemma accepts_map {A B} (o : outcome A) (f : A -> B) P : accepts o P -> accepts (x <- o ;; Ok (f x)) P.
Proof. intros [A1 A2]. split; intros X; [destruct (A1 X) as (x & ->); eexists; reflexivity|rewrite (A2 X); reflexivity]. Qed.
Lemma accepts_throw {A} (o : outcome A) b (P Q : Prop) : (b = false <-> P) -> (P -> accepts o Q) ->
  accepts (_ <- throw_if b StdException ;; o) (P /\ Q).
Proof.
  intros Hb Ha. split; intros X.
  - destruct X as [X Y]. rewrite (proj2 Hb X). cbn [throw_if bind]. apply (Ha X), Y.
  - destruct b; [reflexivity|]. cbn [throw_if bind]. pose proof (proj1 Hb eq_refl) as K. apply (Ha K). tauto.
Qed.
Lemma accepts_ok {A} (x : A) : accepts (Ok x) True.
Proof. split; [eauto|tauto]. Qed.

Lemma ad_of_accepts a r : accepts (ad_of_arrays (a :: r)) (Forall (fun b => len b = len a) r).
Proof.
  unfold ad_of_arrays. apply (accepts_map (ad_generateXSS (a :: r)) (fun l => ArrayData (own l) (u32 (len a)) (u32 (len (a :: r))))).
  destruct (ad_accepts (a :: r)) as [A1 A2]. rewrite same_lengths_all in A1, A2. unfold all_len in A1, A2.
  assert (E : Forall (fun b => len b = len a) r <-> Forall (fun c => len c = len a) (a :: r)).
  { split; [intros H; constructor; auto|intros H; inversion H; assumption]. }
  split; intros H; [apply A1|apply A2]; tauto.
Qed.
Lemma cd_gen_accepts a r : accepts (cd_generateXSS (a :: r)) (Forall (fun b => len b = len a) r).
Proof.
  destruct (cd_accepts (a :: r)) as [A1 A2]; [discriminate|]. rewrite same_lengths_all in A1, A2. unfold all_len in A1, A2.
  assert (E : Forall (fun b => len b = len a) r <-> Forall (fun c => len c = len a) (a :: r)).
  { split; [intros H; constructor; auto|intros H; inversion H; assumption]. }
  split; intros H; [apply A1|apply A2]; tauto.
Qed.
(** [Forall] over a list written out is a conjunction *)
Ltac lengths := rewrite ?Forall_cons_iff, ?Forall_nil_iff; rewrite ?len_map; tauto.

Lemma td_of_accepts bm nbt int x y : 2 + 2 * len nbt + 2 * len x < max_words ->
  accepts (td_of bm nbt int x y) (len int = len nbt /\ len y = len x).
Proof.
  intros B. split; intros H.
  - destruct H as [H1 H2]. destruct (td_gen _ _ _ _ H1 H2) as [G L]. rewrite <- L in B.
    destruct (td_of_round_trip bm _ _ _ _ _ G B) as (o & E & _). eauto.
  - unfold td_of. rewrite (td_gen_bad _ _ _ _ H). reflexivity.
Qed.
