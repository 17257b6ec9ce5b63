(** Lemmas behind the property theorems C01-C09 and C11. *)
From Coq Require Import ZArith Bool List Lia Permutation Sorted.
From Coq Require Import ZifyBool ZifyNat.
From Verif Require Export Angular.
Import ListNotations.
Open Scope Z_scope.

Lemma ixss_any bm v l k n : has v l -> nth_error l k = Some (dbl n) -> - 2 ^ 31 <= n < 2 ^ 31 ->
  ixss bm v (Z.of_nat k + 1) = Ok n.
Proof.
  intros H Hk Hn. unfold ixss. rewrite (xss_has _ _ _ _ _ _ H Hk eq_refl). cbn [bind].
  apply to_int_dbl. exact Hn.
Qed.

Lemma dbl_inj a b : - 2 ^ 53 < a < 2 ^ 53 -> - 2 ^ 53 < b < 2 ^ 53 -> dbl a = dbl b -> a = b.
Proof.
  intros Ha Hb E. pose proof (sf_round_dbl _ Ha) as H1. pose proof (sf_round_dbl _ Hb) as H2.
  rewrite E in H1. congruence.
Qed.

Lemma xss_oob v l i : content v l -> 0 <= i < 2 ^ 64 -> ~ (1 <= i <= len l) ->
  xss Debug v i = Throw OutOfRange.
Proof.
  intros C Hi Ho. unfold xss. rewrite u64_small by lia. rewrite (vlen_content _ _ C).
  cbn [debug]. unfold verifyIndex, throw_if.
  destruct ((i <? 1) || (len l <? i)) eqn:E; [reflexivity|lia].
Qed.

Lemma debug_release v i x : xss Debug v i = Ok x -> xss Release v i = Ok x.
Proof.
  unfold xss. cbn [debug bind]. unfold verifyIndex, throw_if.
  destruct (_ || _); cbn [bind]; [discriminate|auto].
Qed.

Lemma xssr_oob v l i n : content v l -> 1 <= i -> 0 < n -> i + n < 2 ^ 64 ->
  len l + 1 < i + n - 1 -> xssr Debug v i n = Throw OutOfRange.
Proof.
  intros C Hi Hn Hs Ho. pose proof (has_bounds _ _ (content_has _ _ C)) as B. nonneg.
  unfold xssr. rewrite (u64_small n) by lia.
  unfold iter. cbn [debug]. rewrite (vlen_content _ _ C). rewrite (u64_small i) by lia.
  rewrite (u64_small (len l + 1)) by lia. rewrite (u64_small (i + n - 1)) by lia.
  unfold verifyIndex, throw_if.
  destruct ((i <? 1) || (len l + 1 <? i)) eqn:E1; [reflexivity|]. cbn [bind].
  destruct (Z.ltb_spec 0 n); [|lia].
  destruct ((i + n - 1 <? 1) || (len l + 1 <? i + n - 1)) eqn:E2; [reflexivity|lia].
Qed.

Lemma xssr_index_oob v l i n : content v l -> 0 <= i < 2 ^ 64 -> ~ (1 <= i <= len l + 1) ->
  xssr Debug v i n = Throw OutOfRange.
Proof.
  intros C Hi Ho. pose proof (has_bounds _ _ (content_has _ _ C)) as B. nonneg.
  unfold xssr, iter. cbn [debug]. rewrite (vlen_content _ _ C). rewrite (u64_small i) by lia.
  rewrite (u64_small (len l + 1)) by lia. unfold verifyIndex, throw_if.
  destruct ((i <? 1) || (len l + 1 <? i)) eqn:E1; [reflexivity|lia].
Qed.

(** ** Column and array data *)

Lemma cd_round_trip bm v cols l :
  cd_generateXSS cols = Ok l -> has v l ->
  exists c, cd_make v (len cols) = Ok c
    /\ (forall col, In col cols -> cd_N bm c = Ok (len col))
    /\ (forall k col, nth_error cols k = Some col -> cd_column bm c (Z.of_nat k + 1) = Ok col)
    /\ (forall k j col x, nth_error cols k = Some col -> nth_error col j = Some x ->
          cd_value bm c (Z.of_nat k + 1) (Z.of_nat j + 1) = Ok x).
Proof.
  intros G H. apply cd_generateXSS_inv in G as (ne & Hne & A & ->).
  pose proof (has_bounds _ _ H) as B. unfold cd_layout in B. rewrite len_cons, (len_concat ne) in B by exact A.
  assert (N : 0 <= ne < 2 ^ 31).
  { destruct cols as [|c cols]; [congruence|]. inversion A; subst. rewrite len_cons in B. nonneg. nia. }
  exists (ColumnData v (len cols)). split; [apply (cd_make_has _ _ _ A H N _ eq_refl)|].
  split.
  - intros col Hin. rewrite (cd_N_has bm _ _ _ H N). f_equal. unfold all_len in A.
    rewrite Forall_forall in A. symmetry. apply A; exact Hin.
  - split.
    + intros k col Hk. apply (cd_column_has bm _ _ _ A H N _ _ _ _ Hk eq_refl).
    + intros k j col x Hk Hj. apply (cd_value_has bm _ _ _ A H N _ _ _ _ _ _ _ Hk Hj eq_refl eq_refl).
Qed.

Definition same_lengths (cols : list (list double)) : Prop :=
  forall c d, In c cols -> In d cols -> length c = length d.

Lemma same_lengths_all c cols : same_lengths (c :: cols) <-> all_len (len c) (c :: cols).
Proof.
  unfold same_lengths, all_len. rewrite Forall_forall. split.
  - intros H x Hx. unfold len. f_equal. apply H; [exact Hx|left; reflexivity].
  - intros H x y Hx Hy. pose proof (H x Hx). pose proof (H y Hy). unfold len in *. lia.
Qed.

Lemma cd_accepts cols : cols <> [] ->
  (same_lengths cols -> exists l, cd_generateXSS cols = Ok l)
  /\ (~ same_lengths cols -> cd_generateXSS cols = Throw StdException).
Proof.
  destruct cols as [|c cols]; [congruence|]. intros _. rewrite same_lengths_all. split.
  - intros A. eexists. apply cd_generateXSS_ok. exact A.
  - intros A. apply cd_append_ragged. exact A.
Qed.

Lemma ad_accepts arrays :
  (same_lengths arrays -> exists l, ad_generateXSS arrays = Ok l)
  /\ (~ same_lengths arrays -> ad_generateXSS arrays = Throw StdException).
Proof.
  destruct arrays as [|c cols]; [split; [eexists; reflexivity|]|].
  - intros H. exfalso. apply H. intros ? ? [].
  - rewrite same_lengths_all. split.
    + intros A. eexists. apply (ad_generateXSS_ok _ _ A).
    + intros A. apply ad_append_ragged. exact A.
Qed.

Lemma ad_generateXSS_inv arrays l : ad_generateXSS arrays = Ok l ->
  exists n, (forall c, In c arrays -> len c = n) /\ all_len n arrays /\ l = concat arrays.
Proof.
  intros H. destruct arrays as [|c cols].
  - injection H as <-. exists 0. repeat split; [intros c []|constructor].
  - cbn [ad_generateXSS] in H.
    destruct (Forall_dec (fun a => len a = len c) ltac:(intros; apply Z.eq_dec) (c :: cols)) as [A|A].
    + rewrite ad_append_spec in H by exact A. injection H as <-. exists (len c).
      split; [rewrite Forall_forall in A; exact A|]. split; [exact A|reflexivity].
    + rewrite ad_append_ragged in H by exact A. discriminate.
Qed.

Lemma ad_round_trip bm v arrays l n :
  ad_generateXSS arrays = Ok l -> has v l -> (forall a, In a arrays -> len a = n) ->
  0 <= n < 2 ^ 31 -> len arrays < 2 ^ 31 ->
  exists a, ad_make v n (len arrays) = Ok a
    /\ ad_n a = n /\ ad_m a = len arrays
    /\ (forall k x, nth_error arrays k = Some x -> ad_darray bm a (Z.of_nat k + 1) = Ok x)
    /\ (forall k zs, nth_error arrays k = Some (map dbl zs) ->
          Forall (fun z => - 2 ^ 31 <= z < 2 ^ 31) zs -> ad_iarray bm a (Z.of_nat k + 1) = Ok zs)
    /\ (forall k j c x, nth_error arrays k = Some c -> nth_error c j = Some x ->
          ad_dvalue bm a (Z.of_nat k + 1) (Z.of_nat j + 1) = Ok x)
    /\ (forall k j c z, nth_error arrays k = Some c -> nth_error c j = Some (dbl z) ->
          - 2 ^ 31 <= z < 2 ^ 31 -> ad_ivalue bm a (Z.of_nat k + 1) (Z.of_nat j + 1) = Ok z).
Proof.
  intros G H Hn Bn Bm. apply ad_generateXSS_inv in G as (_ & _ & _ & ->).
  assert (A : all_len n arrays) by (unfold all_len; rewrite Forall_forall; exact Hn).
  exists (ArrayData v n (len arrays)). split; [apply ad_make_has; assumption|].
  split; [reflexivity|]. split; [reflexivity|]. repeat split.
  - intros k x Hk. apply (ad_darray_has bm v n arrays A H Bm _ _ _ Hk eq_refl).
  - intros k zs Hk Hz. apply (ad_iarray_has bm v n arrays A H Bm _ _ _ Hk eq_refl Hz).
  - intros k j c x Hk Hj. apply (ad_dvalue_has bm v n arrays A H Bn Bm _ _ _ _ _ _ Hk Hj eq_refl eq_refl).
  - intros k j c z Hk Hj Hz. apply (ad_ivalue_has bm v n arrays A H Bn Bm _ _ _ _ _ _ Hk Hj Hz eq_refl eq_refl).
Qed.

Lemma ad_of_round_trip arrays n : (forall a, In a arrays -> len a = n) ->
  arrays <> [] -> 0 <= n < 2 ^ 31 -> len arrays < 2 ^ 31 -> len (concat arrays) < max_words ->
  exists v, content v (concat arrays) /\ ad_of_arrays arrays = Ok (ArrayData v n (len arrays))
    /\ ad_make v n (len arrays) = Ok (ArrayData v n (len arrays)).
Proof.
  intros Hn Hne Bn Bm Bc. assert (A : all_len n arrays) by (unfold all_len; rewrite Forall_forall; exact Hn).
  exists (own (concat arrays)). pose proof (own_content _ Bc) as C. split; [exact C|].
  unfold ad_of_arrays. rewrite (ad_generateXSS_ok _ _ A). cbn [bind].
  destruct arrays as [|a arrays]; [congruence|]. rewrite (Hn a) by (left; reflexivity).
  rewrite (u32_small n) by lia. rewrite (u32_small (len (a :: arrays))) by (pose proof (len_nonneg (a :: arrays)); lia).
  split; [reflexivity|]. apply ad_make_has; try assumption. apply content_has. exact C.
Qed.

(** ** Tabulated data *)

Lemma td_round_trip bm v nbt int x y l :
  td_generateXSS nbt int x y = Ok l -> has v l ->
  exists o, td_make bm v = Ok o /\ td_v o = v /\ td_shows bm o nbt int x y.
Proof.
  intros G H. apply td_generateXSS_inv in G as (E1 & E2 & ->).
  exact (td_make_has bm v nbt int x y E1 E2 H).
Qed.
Lemma td_of_round_trip bm nbt int x y l :
  td_generateXSS nbt int x y = Ok l -> len l < max_words ->
  exists o, td_of bm nbt int x y = Ok o /\ content (td_v o) l /\ td_shows bm o nbt int x y.
Proof.
  intros G B. unfold td_of. rewrite G. cbn [bind]. pose proof (own_content _ B) as C.
  apply td_generateXSS_inv in G as (E1 & E2 & ->).
  destruct (td_blocks_has bm _ nbt int x y E1 E2 (content_has _ _ C)) as (o & Mo & Vo & So).
  exists o. rewrite Vo. auto.
Qed.
Lemma td_accepts nbt int x y :
  (length nbt = length int /\ length x = length y -> exists l, td_generateXSS nbt int x y = Ok l)
  /\ (length nbt <> length int \/ length x <> length y -> td_generateXSS nbt int x y = Throw StdException).
Proof.
  split.
  - intros [H1 H2]. eexists. apply td_generateXSS_ok; unfold len; lia.
  - intros H. apply td_generateXSS_ragged. unfold len; lia.
Qed.

Lemma ev_round_trip bm v nbt int x y u l :
  ev_generateXSS nbt int x y u = Ok l -> has v l ->
  exists o, ev_make bm v = Ok o /\ ev_v o = v /\ ev_shows bm o nbt int x y u.
Proof.
  intros G H. apply ev_generateXSS_inv in G as (E1 & E2 & ->).
  exact (ev_make_has bm v nbt int x y u E1 E2 H).
Qed.
Lemma ge_round_trip bm v nbt int x y bins l :
  ge_generateXSS nbt int x y bins = Ok l -> has v l ->
  exists o, ge_make bm v = Ok o /\ ge_v o = v /\ ge_shows bm o nbt int x y bins.
Proof.
  intros G H. apply ge_generateXSS_inv in G as (E1 & E2 & ->).
  exact (ge_make_has bm v nbt int x y bins E1 E2 H).
Qed.
Lemma wa_round_trip bm v nbta inta xa ya nbtb intb xb yb u la lb :
  td_generateXSS nbta inta xa ya = Ok la -> td_generateXSS nbtb intb xb yb = Ok lb ->
  has v (wa_generateXSS la lb u) ->
  exists o, wa_make bm v = Ok o /\ wa_v o = v
    /\ td_shows bm (wa_a o) nbta inta xa ya /\ td_shows bm (wa_b o) nbtb intb xb yb /\ wa_U o = Ok u.
Proof.
  intros Ga Gb H. apply td_generateXSS_inv in Ga as (E1 & E2 & ->).
  apply td_generateXSS_inv in Gb as (E3 & E4 & ->).
  exact (wa_make_has bm v _ _ _ _ _ _ _ _ u E1 E2 E3 E4 H).
Qed.
Lemma dp_round_trip bm v number lambda nbt int x y l :
  dp_generateXSS lambda nbt int x y = Ok l -> has v l ->
  exists o, dp_make bm v number = Ok o /\ pt_v (dp_tab o) = v /\ dp_number o = number
    /\ dp_DEC bm o = Ok lambda /\ td_shows bm (pt_tab (dp_tab o)) nbt int x y.
Proof.
  intros G H. apply pt_generateXSS_inv in G as (E1 & E2 & ->). exact (dp_has bm v number lambda _ _ _ _ E1 E2 H).
Qed.
Lemma tf_round_trip bm v nbt int x y l :
  tf_generateXSS nbt int x y = Ok l -> has v l ->
  exists o, tf_make bm v = Ok o /\ pt_v o = v /\ tf_LNU bm o = Ok 2
    /\ td_shows bm (pt_tab o) nbt int x y.
Proof.
  intros G H. apply pt_generateXSS_inv in G as (E1 & E2 & ->). exact (tf_has bm v _ _ _ _ E1 E2 H).
Qed.
Lemma ts_round_trip bm v mftype mt nbt int x y l :
  0 <= mftype < 2 ^ 31 -> 0 <= mt < 2 ^ 31 ->
  ts_generateXSS mftype mt nbt int x y = Ok l -> has v l ->
  exists o, ts_make bm v = Ok o /\ pt_v o = v /\ ts_MFTYPE bm o = Ok mftype /\ ts_MT bm o = Ok mt
    /\ td_shows bm (pt_tab o) nbt int x y.
Proof.
  intros B1 B2 G H. apply pt_generateXSS_inv in G as (E1 & E2 & ->).
  exact (ts_has bm v mftype mt _ _ _ _ B1 B2 E1 E2 H).
Qed.

(** ** Locator blocks *)

(** A generic block: reading with any element reader [gd] which reads back an
    element content placed anywhere. *)
Lemma bl_round_trip {D} bm (gd : Z -> view -> outcome D) locator (cs : list (list double))
    (S : list double -> D -> Prop) v l :
  (forall loc w c, In c cs -> has w c -> exists d, gd loc w = Ok d /\ S c d) ->
  bl_generateXSS locator cs = Ok l -> has v l ->
  exists o, bl_make bm gd v (vbeg v + len cs) (len cs) locator = Ok o
    /\ bl_v o = v /\ bl_n o = len cs
    /\ (forall k c, nth_error cs k = Some c -> exists d, bl_datum bm o (Z.of_nat k + 1) = Ok d /\ S c d)
    /\ (forall k c, nth_error cs k = Some c ->
          bl_LLOC bm o (Z.of_nat k + 1) = Ok (1 + len (concat (firstn k cs)))).
Proof.
  intros Hgd G H. rewrite bl_generateXSS_ok in G. injection G as <-.
  pose proof (has_bounds _ _ H) as B. rewrite len_bl_layout in B. nonneg.
  unfold bl_make, throw_if. rewrite s64_small by lia.
  destruct (Z.ltb_spec (vbeg v + len cs - vbeg v) (len cs)); [lia|]. cbn [bind].
  destruct (bl_has bm v locator cs gd (fun k d => exists c, nth_error cs k = Some c /\ S c d) (vbeg v + len cs) H eq_refl)
    as (ds & Hds & Lds & Rds).
  { intros pre c post w E Hw. destruct (Hgd (1 + len (concat pre)) w c) as (d & Hd & Sd).
    - rewrite E. apply in_elt.
    - exact Hw.
    - exists d. split; [exact Hd|]. exists c. split; [rewrite E; apply nth_error_mid|exact Sd]. }
  rewrite Hds. cbn [bind]. eexists; split; [reflexivity|]. split; [reflexivity|]. split; [reflexivity|].
  split.
  - intros k c Hk. destruct (nth_error ds k) as [d|] eqn:Ed.
    2:{ apply nth_error_None in Ed. apply nth_error_len in Hk. unfold len in Hk. lia. }
    exists d. split.
    + apply (bl_datum_has bm _ _ _ _ _ _ _ _ Ed eq_refl); [unfold len; rewrite Lds; reflexivity|lia].
    + destruct (Rds _ _ Ed) as (c' & Hc' & Sc'). congruence.
  - intros k c Hk. destruct (nth_split_len _ _ _ Hk) as (pre & post & E & Lp).
    unfold bl_LLOC. cbn [bl_v bl_n bl_locator].
    rewrite (bl_LLOC_has bm v locator cs H pre c post) by (try exact E; unfold len; lia).
    rewrite E, <- Lp, firstn_app, firstn_all, Nat.sub_diag, firstn_O, app_nil_r. reflexivity.
Qed.

(** If the view shows exactly the block, each data block shows exactly the
    words it was built from. *)
Lemma bl_round_trip_exact {D} bm (gd : Z -> view -> outcome D) locator (cs : list (list double))
    (S : list double -> D -> Prop) v l :
  (forall loc w c, In c cs -> content w c -> exists d, gd loc w = Ok d /\ S c d) ->
  bl_generateXSS locator cs = Ok l -> content v l ->
  exists o, bl_make bm gd v (vbeg v + len cs) (len cs) locator = Ok o
    /\ bl_v o = v /\ bl_n o = len cs
    /\ (forall k c, nth_error cs k = Some c -> exists d, bl_datum bm o (Z.of_nat k + 1) = Ok d /\ S c d).
Proof.
  intros Hgd G H. rewrite bl_generateXSS_ok in G. injection G as <-.
  pose proof (has_bounds _ _ (content_has _ _ H)) as B. rewrite len_bl_layout in B. nonneg.
  unfold bl_make, throw_if. rewrite s64_small by lia.
  destruct (Z.ltb_spec (vbeg v + len cs - vbeg v) (len cs)); [lia|]. cbn [bind].
  destruct (bl_content bm v locator cs gd (fun k d => exists c, nth_error cs k = Some c /\ S c d) (vbeg v + len cs) H eq_refl)
    as (ds & Hds & Lds & Rds).
  { intros pre c post w E Hw. destruct (Hgd (1 + len (concat pre)) w c) as (d & Hd & Sd).
    - rewrite E. apply in_elt.
    - exact Hw.
    - exists d. split; [exact Hd|]. exists c. split; [rewrite E; apply nth_error_mid|exact Sd]. }
  rewrite Hds. cbn [bind]. eexists; split; [reflexivity|]. split; [reflexivity|]. split; [reflexivity|].
  intros k c Hk. destruct (nth_error ds k) as [d|] eqn:Ed.
  2:{ apply nth_error_None in Ed. apply nth_error_len in Hk. unfold len in Hk. lia. }
  exists d. split.
  + apply (bl_datum_has bm _ _ _ _ _ _ _ _ Ed eq_refl); [unfold len; rewrite Lds; reflexivity|lia].
  + destruct (Rds _ _ Ed) as (c' & Hc' & Sc'). congruence.
Qed.

(** Building from data gives the same block as reading the generated words. *)
Lemma bl_of_make {D} bm (gd : Z -> view -> outcome D) locator cs l :
  bl_generateXSS locator cs = Ok l -> len l < max_words ->
  bl_of bm gd locator cs = bl_make bm gd (own l) (vbeg (own l) + len cs) (len cs) locator.
Proof.
  intros G B. unfold bl_of. rewrite G. cbn [bind].
  pose proof G as G'. rewrite bl_generateXSS_ok in G'. injection G' as E.
  assert (Lc : 0 <= len cs < 2 ^ 31).
  { rewrite <- E, len_bl_layout in B. unfold max_words in B. nonneg. lia. }
  rewrite u32_small by lia. unfold bl_make, throw_if. cbn [vbeg own].
  rewrite s64_small by lia. destruct (Z.ltb_spec (0 + len cs - 0) (len cs)); [lia|]. reflexivity.
Qed.

(** SIG *)
Inductive sig_entry := SigEntry (index : Z) (values : list double).
Definition sig_words (e : sig_entry) : list double :=
  match e with SigEntry i vs => xs_generateXSS i vs end.
Definition sig_index (e : sig_entry) := match e with SigEntry i _ => i end.
Definition sig_values (e : sig_entry) := match e with SigEntry _ vs => vs end.

Lemma sig_round_trip bm v es l :
  Forall (fun e => 0 <= sig_index e < 2 ^ 31) es ->
  bl_generateXSS true (map sig_words es) = Ok l -> has v l ->
  exists o, bl_make bm (sig_generateData bm) v (vbeg v + len es) (len es) true = Ok o
    /\ bl_v o = v /\ bl_n o = len es
    /\ forall k e, nth_error es k = Some e -> exists d, bl_datum bm o (Z.of_nat k + 1) = Ok d
         /\ xs_shows bm d (sig_index e) (sig_values e).
Proof.
  intros F G H.
  destruct (bl_round_trip bm (sig_generateData bm) true (map sig_words es)
    (fun c d => forall e, In e es -> sig_words e = c -> xs_shows bm d (sig_index e) (sig_values e)) v l)
    as (o & Mo & Vo & No & Do & _).
  - intros loc w c Hin Hw. apply in_map_iff in Hin as ([i vs] & <- & Hi).
    rewrite Forall_forall in F. pose proof (F _ Hi) as Bi. cbn [sig_index] in Bi.
    destruct (xs_has bm w i vs Bi Hw) as [M S]. exists w. split; [exact M|].
    intros [i' vs'] Hi' Ew. cbn [sig_words sig_index sig_values] in *. unfold xs_generateXSS in Ew.
    pose proof (F _ Hi') as Bi'. cbn [sig_index] in Bi'. injection Ew as Ei _ ->.
    apply dbl_inj in Ei; [subst; exact S| |]; lia.
  - exact G.
  - exact H.
  - rewrite len_map in *. exists o. split; [exact Mo|]. split; [exact Vo|]. split; [exact No|].
    intros k e Hk. destruct (Do k (sig_words e)) as (d & Hd & Sd).
    + rewrite nth_error_map, Hk. reflexivity.
    + exists d. split; [exact Hd|]. apply Sd; [|reflexivity]. eapply nth_error_In; exact Hk.
Qed.

(** SIGP: cross sections or multiplicities *)
Inductive sigp_entry :=
| SigpXS (index : Z) (values : list double)
| SigpMult (mftype mt : Z) (nbt int : list Z) (x y : list double).
Definition sigp_generateXSS (e : sigp_entry) : outcome (list double) :=
  match e with
  | SigpXS i vs => Ok (px_generateXSS i vs)
  | SigpMult mf mt nbt int x y => ts_generateXSS mf mt nbt int x y
  end.
Definition sigp_fits (e : sigp_entry) : Prop :=
  match e with
  | SigpXS i vs => 0 <= i < 2 ^ 31
  | SigpMult mf mt _ _ _ _ => 0 <= mf < 2 ^ 31 /\ 0 <= mt < 2 ^ 31
  end.
Definition sigp_mf13 (e : sigp_entry) : Prop :=
  match e with SigpXS _ _ => False | SigpMult mf _ _ _ _ _ => mf = 13 end.
Definition sigp_shows bm (e : sigp_entry) (d : photonProduction) : Prop :=
  match e, d with
  | SigpXS i vs, PPCrossSection w => px_shows bm w i vs
  | SigpMult mf mt nbt int x y, PPMultiplicity t =>
      ts_MFTYPE bm t = Ok mf /\ ts_MT bm t = Ok mt /\ td_shows bm (pt_tab t) nbt int x y
  | _, _ => False
  end.

Lemma sigp_data bm loc w e c : sigp_generateXSS e = Ok c -> sigp_fits e -> ~ sigp_mf13 e -> has w c ->
  exists d, sigp_generateData bm loc w = Ok d /\ sigp_shows bm e d.
Proof.
  destruct e as [i vs|mf mt nbt int x y]; cbn [sigp_generateXSS sigp_fits sigp_mf13]; intros G Hf H13 H.
  - injection G as <-. destruct (px_has bm w i vs Hf H) as [M S].
    unfold sigp_generateData. unfold px_generateXSS in H. rewrite (deref_has _ _ _ H). cbn [bind].
    rewrite to_int_dbl by lia. cbn [bind Z.eqb Pos.eqb]. rewrite M. cbn [bind].
    eexists; split; [reflexivity|]. exact S.
  - destruct Hf as [B1 B2]. destruct (ts_round_trip bm w _ _ _ _ _ _ _ B1 B2 G H) as (o & Mo & _ & S1 & S2 & S3).
    apply pt_generateXSS_inv in G as (_ & _ & ->). cbn [app] in H.
    unfold sigp_generateData. rewrite (deref_has _ _ _ H). cbn [bind].
    rewrite to_int_dbl by lia. cbn [bind]. destruct (Z.eqb_spec mf 13); [congruence|].
    rewrite Mo. cbn [bind]. eexists; split; [reflexivity|]. cbn. auto.
Qed.

(** Locator blocks whose entries are described by some type E. *)
Lemma bl_entries {D E} bm (gd : Z -> view -> outcome D) (gen : E -> outcome (list double))
    (fits : E -> Prop) (shows : E -> D -> Prop) es cs locator v l :
  (forall loc w e c, In e es -> gen e = Ok c -> has w c -> exists d, gd loc w = Ok d /\ shows e d) ->
  mapM gen es = Ok cs -> bl_generateXSS locator cs = Ok l -> has v l ->
  exists o, bl_make bm gd v (vbeg v + len es) (len es) locator = Ok o
    /\ bl_v o = v /\ bl_n o = len es
    /\ forall k e, nth_error es k = Some e -> exists d, bl_datum bm o (Z.of_nat k + 1) = Ok d /\ shows e d.
Proof.
  intros Hgd Hm G H.
  assert (Hnth : length cs = length es /\ forall k e, nth_error es k = Some e -> exists c, gen e = Ok c /\ nth_error cs k = Some c).
  { clear -Hm. revert cs Hm; induction es as [|e es IH]; intros cs Hm; cbn [mapM] in Hm.
    - injection Hm as <-. split; [reflexivity|]. intros [|k] e; discriminate.
    - destruct (gen e) as [c| |] eqn:Ge; try discriminate. cbn [bind] in Hm.
      destruct (mapM gen es) as [r| |] eqn:Er; try discriminate. cbn [bind] in Hm. injection Hm as <-.
      destruct (IH _ eq_refl) as [L N]. split; [cbn; lia|]. intros [|k] e' He'; cbn [nth_error] in *.
      + injection He' as <-. eauto.
      + apply N; exact He'. }
  destruct Hnth as [Lcs Hnth].
  rewrite bl_generateXSS_ok in G. injection G as <-.
  assert (Elen : len es = len cs) by (unfold len; lia).
  pose proof (has_bounds _ _ H) as B. rewrite len_bl_layout in B. nonneg.
  rewrite Elen. unfold bl_make, throw_if. rewrite s64_small by lia.
  destruct (Z.ltb_spec (vbeg v + len cs - vbeg v) (len cs)); [lia|]. cbn [bind].
  destruct (bl_has bm v locator cs gd (fun k d => exists e, nth_error es k = Some e /\ shows e d) (vbeg v + len cs) H eq_refl)
    as (ds & Hds & Lds & Rds).
  { intros pre c post w E0 Hw.
    destruct (nth_error es (length pre)) as [e|] eqn:Ee.
    2:{ apply nth_error_None in Ee. rewrite <- Lcs, E0, app_length in Ee. cbn in Ee. lia. }
    destruct (Hnth _ _ Ee) as (c' & Gc' & Nc'). rewrite E0, nth_error_mid in Nc'. injection Nc' as <-.
    destruct (Hgd (1 + len (concat pre)) w e c) as (d & Hd & Sd); auto.
    - eapply nth_error_In; exact Ee.
    - exists d. split; [exact Hd|]. eauto. }
  rewrite Hds. cbn [bind]. eexists; split; [reflexivity|]. split; [reflexivity|]. split; [reflexivity|].
  intros k e Hk. destruct (nth_error ds k) as [d|] eqn:Ed.
  2:{ apply nth_error_None in Ed. apply nth_error_len in Hk. unfold len in *. lia. }
  exists d. split.
  + apply (bl_datum_has bm _ _ _ _ _ _ _ _ Ed eq_refl); [unfold len; rewrite Lds; reflexivity|lia].
  + destruct (Rds _ _ Ed) as (e' & He' & Se'). congruence.
Qed.

Lemma sigp_round_trip bm v es cs l :
  Forall sigp_fits es -> Forall (fun e => ~ sigp_mf13 e) es ->
  mapM sigp_generateXSS es = Ok cs -> bl_generateXSS true cs = Ok l -> has v l ->
  exists o, bl_make bm (sigp_generateData bm) v (vbeg v + len es) (len es) true = Ok o
    /\ bl_v o = v /\ bl_n o = len es
    /\ forall k e, nth_error es k = Some e -> exists d, bl_datum bm o (Z.of_nat k + 1) = Ok d /\ sigp_shows bm e d.
Proof.
  intros F1 F2 M G H. rewrite Forall_forall in F1, F2.
  apply (bl_entries bm (sigp_generateData bm) sigp_generateXSS sigp_fits (sigp_shows bm) es cs true v l); auto.
  intros loc w e c Hin Ge Hw. apply (sigp_data bm loc w e c); auto.
Qed.

(** SIGH: multiplicities *)
Inductive sigh_entry := SighEntry (mftype mt : Z) (nbt int : list Z) (x y : list double).
Definition sigh_generateXSS (e : sigh_entry) : outcome (list double) :=
  match e with SighEntry mf mt nbt int x y => ts_generateXSS mf mt nbt int x y end.
Definition sigh_fits (e : sigh_entry) : Prop :=
  match e with SighEntry mf mt _ _ _ _ => 0 <= mf < 2 ^ 31 /\ 0 <= mt < 2 ^ 31 end.
Definition sigh_shows bm (e : sigh_entry) (t : prefixedTabulated) : Prop :=
  match e with SighEntry mf mt nbt int x y =>
    ts_MFTYPE bm t = Ok mf /\ ts_MT bm t = Ok mt /\ td_shows bm (pt_tab t) nbt int x y end.
Lemma sigh_round_trip bm v es cs l :
  Forall sigh_fits es ->
  mapM sigh_generateXSS es = Ok cs -> bl_generateXSS true cs = Ok l -> has v l ->
  exists o, bl_make bm (sigh_generateData bm) v (vbeg v + len es) (len es) true = Ok o
    /\ bl_v o = v /\ bl_n o = len es
    /\ forall k e, nth_error es k = Some e -> exists d, bl_datum bm o (Z.of_nat k + 1) = Ok d /\ sigh_shows bm e d.
Proof.
  intros F1 M G H. rewrite Forall_forall in F1.
  apply (bl_entries bm (sigh_generateData bm) sigh_generateXSS sigh_fits (sigh_shows bm) es cs true v l); auto.
  intros loc w [mf mt nbt int x y] c Hin Ge Hw. destruct (F1 _ Hin) as [B1 B2].
  destruct (ts_round_trip bm w _ _ _ _ _ _ _ B1 B2 Ge Hw) as (o & Mo & _ & S).
  exists o. auto.
Qed.
