(** C44: tables whose numbers have no more digits than the file format keeps are read back exactly. *)
From Coq Require Import String.
From Coq Require Import ZArith Bool List Lia Ascii.
From Verif Require Import Base SZA PropsContinuous PropsThermal PropsPhotoatomic PropsPhotonuclear PropsTables PropsHeaders OwnershipAce.
From Verif Require Import PropsText DecimalExact.
Import ListNotations.
Open Scope Z_scope.

(** * Specification *)

(** The conversion of numeric fields is correctly rounded ([read_double] is the double nearest to the
    decimal number in the text). *)
Definition reads_correctly (rd : text -> option double) : Prop := forall t x, read_double t = Some x -> rd t = Some x.

(** The atomic weight ratio is given to 6 decimals, the temperature to 5 significant digits, the atomic
    weight ratios of the (ZA, AW) pairs to 7 decimals and the XSS array to 13 significant digits; NXS(1)
    is the number of XSS values. *)
Definition exact_header (h : header) : Prop :=
  match h with
  | Legacy h => fixed_exact 6 (h_awr h) /\ sci_exact 4 (h_temp h)
  | Modern g => fixed_exact 6 (g_awr g) /\ sci_exact 4 (g_temp g)
  end.
Definition exact_data (d : tdata) : Prop :=
  Forall (fixed_exact 7) (d_aw d) /\ Forall (sci_exact 12) (d_xss d) /\ nth_error (d_nxs d) 0 = Some (len (d_xss d)).
Definition exact_table (t : table) : Prop := exact_header (fst t) /\ exact_data (snd t).

(** * Proofs *)
Lemma correct_reads rd : reads_correctly rd -> reads_numbers rd.
Proof.
  intros H. destruct read_double_reads as [F S]. split; intros p x Hp Px.
  - destruct (F p x Hp Px) as (y & R & Y). exists y. split; [apply H; exact R|exact Y].
  - destruct (S p x Hp Px) as (y & R & Y). exists y. split; [apply H; exact R|exact Y].
Qed.
Lemma forall2_eq {A} (P : A -> A -> Prop) (Q : A -> Prop) l l' : (forall x y, Q x -> P x y -> y = x) -> Forall Q l -> Forall2 P l l' -> l' = l.
Proof. intros H F G. induction G; [reflexivity|]. inversion_clear F. f_equal; auto. Qed.
Lemma exact_read rd t t' : reads_correctly rd -> exact_table t -> len (d_nxs (snd t)) = 16 -> same_table t t' -> table_read rd t t' -> t' = t.
Proof.
  intros RC [EH (EA & EX & EN)] W [SH (S1 & _ & S3 & S4 & _ & _)] [HR (DA & DX)]. destruct t as [h d], t' as [h' d']. cbn [fst snd] in *. f_equal.
  - destruct h as [h|g], h' as [h'|g']; try contradiction.
    + destruct EH as [E1 E2], HR as [R1 R2], SH as (A1 & _ & _ & A2 & A3 & A4). apply (fixed_exact_read 6) in E1; [|lia]. apply (sci_exact_read "E" 4) in E2; [|lia|right; reflexivity]. apply RC in E1, E2.
      destruct h as [x1 x2 x3 x4 x5 x6], h' as [y1 y2 y3 y4 y5 y6]. cbn [h_zaid h_awr h_temp h_date h_title h_material] in *. congruence.
    + destruct EH as [E1 E2], HR as [R1 R2], SH as (A1 & A2 & A3 & _ & _ & A4 & A5). apply (fixed_exact_read 6) in E1; [|lia]. apply (sci_exact_read "E" 4) in E2; [|lia|right; reflexivity].
      destruct g as [x1 x2 x3 x4 x5 x6 x7], g' as [y1 y2 y3 y4 y5 y6 y7]. cbn [g_vers g_szaid g_src g_awr g_temp g_date g_comments] in *. congruence.
  - assert (A : d_aw d' = d_aw d).
    { refine (forall2_eq _ _ _ _ _ EA DA). intros x y Ex R. apply (fixed_exact_read 7) in Ex; [|lia]. apply RC in Ex. congruence. }
    assert (X : d_xss d' = d_xss d).
    { refine (forall2_eq _ _ _ _ _ EX DX). intros x y Ex R. apply (sci_exact_read "E" 12) in Ex; [|lia|right; reflexivity]. apply RC in Ex. congruence. }
    destruct d as [iz aw [|n nxs] jxs xss]; [discriminate W|]. destruct d' as [y1 y2 y3 y4 y5]. cbn [d_iz d_aw d_nxs d_jxs d_xss nth_error tl] in *. congruence.
Qed.

(** * Theorems *)

(** A table with such numbers that fits the columns is read back exactly: the same header, arrays and values. *)
Theorem C44_exact_tables_are_preserved : forall rd bm t, reads_correctly rd -> table_ok t -> exact_table t ->
  exists text, print_table bm t = Ok text /\ forall rest, parse_table rd (text ++ rest) = Ok (t, rest).
Proof.
  intros rd bm t R H E. destruct (table_round_trip_read rd bm t (correct_reads rd R) H) as (text & t' & P & Q & S & D). exists text. split; [exact P|]. intros rest.
  rewrite Q. rewrite (exact_read rd t t' R E (proj1 (proj2 (proj2 (proj1 (proj2 H))))) S D). reflexivity.
Qed.
Print Assumptions C44_exact_tables_are_preserved.

(** Files with one or several of them. *)
Theorem C44_exact_files_are_preserved : forall rd bm ts, reads_correctly rd -> Forall table_ok ts -> Forall exact_table ts ->
  exists texts, Forall2 (fun t text => print_table bm t = Ok text) ts texts /\ from_concatenated rd (concat texts) = Ok ts.
Proof.
  intros rd bm ts R H E. destruct (parse_tables_texts_read rd bm ts (correct_reads rd R) H) as (texts & ts' & P & S & D & Q). exists texts. split; [exact P|].
  unfold from_concatenated. rewrite Q by apply le_n. f_equal. clear P Q. revert H E D. induction S as [|x y l l' Sx S IH]; intros H E D; [reflexivity|]. apply Forall_cons_iff in H as [H1 H], E as [E1 E]. inversion_clear D as [|? ? ? ? D1 D2]. f_equal; [|auto].
  apply (exact_read rd); auto. exact (proj1 (proj2 (proj2 (proj1 (proj2 H1))))).
Qed.
Print Assumptions C44_exact_files_are_preserved.

(** A table that was read back once is preserved exactly by any further writing and reading, whatever the
    digits of the original numbers and the rounding of the conversion. *)
Theorem C44_tables_are_settled_after_one_reading : forall rd bm t text t' rest rest', reads_numbers rd -> table_ok t ->
  print_table bm t = Ok text -> parse_table rd (text ++ rest) = Ok (t', rest') ->
  exists text', print_table bm t' = Ok text' /\ forall rest, parse_table rd (text' ++ rest) = Ok (t', rest).
Proof.
  intros rd bm t text t' rest rest' R H P Q. destruct (C28_printing_is_stable rd bm t text t' rest rest' R H P Q) as [-> S]. exists text. split; [exact S|].
  destruct (table_round_trip rd bm t R H) as (text2 & t2 & P2 & Q2 & _). assert (text2 = text) as -> by congruence. intros r. rewrite (Q2 rest) in Q. apply Ok_inj, pair_equal_spec in Q as [<- _]. apply Q2.
Qed.
Print Assumptions C44_tables_are_settled_after_one_reading.

(** Whole numbers of at most 13 digits are such numbers, so are zeros and decimal numbers of few digits. *)
Theorem C44_whole_numbers_are_exact : forall n, Z.abs n < 10 ^ 13 -> sci_exact 12 (dbl n).
Proof. intros n H. apply sci_exact_dbl; [right; exact H|lia|exact H]. Qed.
Print Assumptions C44_whole_numbers_are_exact.

(** ** Typed tables: what is written by a table object is read and interpreted as the same object *)

(** ZAID() of the header *)
Definition zaid_of (h : header) : text := match h with Legacy h => h_zaid h | Modern g => g_szaid g end.
(** [t], with the header [h] and the data [d], was built by [make]; it is written and what is read makes [t] again. *)
Definition saved {T} (make : text -> tdata -> outcome T) rd bm (h : header) (d : tdata) (t : T) : Prop :=
  exists text, print_table bm (h, d) = Ok text /\ from_content rd text = Ok (h, d) /\ make (zaid_of h) d = Ok t.
Lemma saved_intro {T} (make : text -> tdata -> outcome T) rd bm h d t : reads_correctly rd -> table_ok (h, d) -> exact_table (h, d) -> make (zaid_of h) d = Ok t -> saved make rd bm h d t.
Proof.
  intros R H E M. destruct (C44_exact_tables_are_preserved rd bm (h, d) R H E) as (text & P & Q). exists text. split; [exact P|]. split; [|exact M].
  unfold from_content. specialize (Q []). rewrite app_nil_r in Q. rewrite Q. reflexivity.
Qed.

(** Any continuous-energy table object: built from blocks or from another table *)
Lemma ce_blocks_data bm zaid d t : ce_generateBlocks bm zaid d = Ok t -> ct_data t = d /\ ct_zaid t = zaid.
Proof.
  unfold ce_generateBlocks. intros H. repeat (apply bind_ok in H as (? & _ & H)). destruct (0 <? _) in H.
  - repeat (apply bind_ok in H as (? & _ & H)). apply Ok_inj in H. subst t. split; reflexivity.
  - apply Ok_inj in H. subst t. split; reflexivity.
Qed.
Lemma ce_make_again bm zaid d t : ce_make bm zaid d = Ok t -> ce_make bm zaid (ct_data t) = Ok t.
Proof.
  unfold ce_make. intros H. apply bind_ok in H as (u & V & H). apply bind_ok in H as (d' & S & H). rewrite V. cbn [bind]. destruct (ce_blocks_data _ _ _ _ H) as [-> _].
  rewrite (setSZA_again bm _ _ _ S). exact H.
Qed.
Lemma ce_of_again bm z a st zaid i t : ce_of bm z a st zaid i = Ok t -> ce_make bm zaid (ct_data t) = Ok t.
Proof. unfold ce_of. intros H. apply bind_ok in H as (d & _ & H). exact (ce_make_again _ _ _ _ H). Qed.
Theorem C44_continuous_energy : forall rd bm z a st h i t, reads_correctly rd -> ce_of bm z a st (zaid_of h) i = Ok t ->
  table_ok (h, ct_data t) -> exact_table (h, ct_data t) -> saved (ce_make bm) rd bm h (ct_data t) t.
Proof. intros. apply saved_intro; try assumption. eapply ce_of_again; eassumption. Qed.
Print Assumptions C44_continuous_energy.

Theorem C44_thermal : forall rd bm h i t, reads_correctly rd -> th_of bm (zaid_of h) i = Ok t ->
  table_ok (h, tt_data t) -> exact_table (h, tt_data t) -> saved (th_make bm) rd bm h (tt_data t) t.
Proof.
  intros rd bm h i t R H HT HE. apply saved_intro; try assumption. unfold th_of in H. apply bind_ok in H as (d & _ & H). assert (E : tt_data t = d); [|rewrite E; exact H].
  unfold th_make in H. repeat (apply bind_ok in H as (? & _ & H)). apply Ok_inj in H. subst t. reflexivity.
Qed.
Print Assumptions C44_thermal.

Theorem C44_photoatomic : forall rd bm h i t, reads_correctly rd -> pa_of bm (zaid_of h) i = Ok t ->
  table_ok (h, pt_data t) -> exact_table (h, pt_data t) -> saved (pa_make bm) rd bm h (pt_data t) t.
Proof.
  intros rd bm h i t R H HT HE. apply saved_intro; try assumption. unfold pa_of in H. apply bind_ok in H as (d & _ & H). assert (E : pt_data t = d); [|rewrite E; exact H].
  unfold pa_make in H. apply bind_ok in H as (u & _ & H). apply bind_ok in H as ([[[[? ?] ?] ?] ?] & _ & H). repeat (apply bind_ok in H as (? & _ & H)). apply Ok_inj in H. subst t. reflexivity.
Qed.
Print Assumptions C44_photoatomic.

Lemma pu_blocks_data bm zaid d t : pu_generateBlocks bm zaid d = Ok t -> ut_data t = d.
Proof.
  unfold pu_generateBlocks. intros H. repeat (apply bind_ok in H as (? & _ & H)). destruct (0 <? _) in H; repeat (apply bind_ok in H as (? & _ & H)); apply Ok_inj in H; subst t; reflexivity.
Qed.
Theorem C44_photonuclear : forall rd bm z a st h i t, reads_correctly rd -> pu_of bm z a st (zaid_of h) i = Ok t ->
  table_ok (h, ut_data t) -> exact_table (h, ut_data t) -> saved (pu_make bm) rd bm h (ut_data t) t.
Proof.
  intros rd bm z a st h i t R H HT HE. apply saved_intro; try assumption. unfold pu_of in H. apply bind_ok in H as (d & _ & H). unfold pu_make in H |- *.
  apply bind_ok in H as (u & V & H). apply bind_ok in H as (d' & S & H). rewrite V. cbn [bind]. rewrite (pu_blocks_data _ _ _ _ H), (setSZA_again bm _ _ _ S). exact H.
Qed.
Print Assumptions C44_photonuclear.

Theorem C44_dosimetry : forall rd bm z a h mtr sigd t, reads_correctly rd -> dt_of bm z a (zaid_of h) mtr sigd = Ok t ->
  table_ok (h, dt_data t) -> exact_table (h, dt_data t) -> saved (dt_make bm) rd bm h (dt_data t) t.
Proof.
  intros rd bm z a h mtr sigd t R H HT HE. apply saved_intro; try assumption. unfold dt_of in H. apply bind_ok in H as (? & _ & H). apply bind_ok in H as (? & _ & H). apply bind_ok in H as (d & _ & H).
  assert (E : dt_data t = d); [|rewrite E; exact H]. unfold dt_make in H. repeat (apply bind_ok in H as (? & _ & H)). apply Ok_inj in H. subst t. reflexivity.
Qed.
Print Assumptions C44_dosimetry.

(** ** From the values of a continuous-energy table *)
Lemma sumZ_firstn_bounds l : Forall (fun x => 0 <= x) l -> forall k, 0 <= sumZ (firstn k l) <= sumZ l.
Proof.
  induction 1 as [|x l Hx _ IH]; intros [|k]; cbn [firstn sumZ fold_right]; try lia.
  - specialize (IH 0%nat). cbn [firstn sumZ fold_right] in IH. unfold sumZ in IH. lia.
  - specialize (IH k). unfold sumZ in IH. lia.
Qed.
Lemma ce_places_bounds srt v f : ce_valid srt v -> ce_fission_place v f -> len (ce_places v f) = 32 /\ Forall (fun n => 0 <= n <= 3 * ce_size v + 2) (ce_places v f).
Proof.
  intros V F. pose proof (ce_size_parts _ _ V) as (N1 & N2 & N3 & N4 & N5 & N6 & N7).
  assert (P1 : or0 photon_size (v_photon v) = or0 (fun g => len (gv_gpd g)) (v_photon v) + or0 (fun g => len (gv_mts g)) (v_photon v) + or0 (fun g => len (bl_layout true (gv_sigw g))) (v_photon v)
    + or0 (fun g => len (gv_ang g) + ab_total (gv_ang g)) (v_photon v) + or0 (fun g => len (gv_en g) + gv_n g) (v_photon v) + or0 (fun g => 1 + len (gv_yp g)) (v_photon v)
    /\ 0 <= or0 (fun g => len (gv_gpd g)) (v_photon v) /\ 0 <= or0 (fun g => len (gv_mts g)) (v_photon v) /\ 0 <= or0 (fun g => len (bl_layout true (gv_sigw g))) (v_photon v)
    /\ 0 <= or0 (fun g => len (gv_ang g) + ab_total (gv_ang g)) (v_photon v) /\ 0 <= or0 (fun g => len (gv_en g) + gv_n g) (v_photon v) /\ 0 <= or0 (fun g => 1 + len (gv_yp g)) (v_photon v)).
  { pose proof (v_photon_ok _ _ V) as X. destruct (v_photon v) as [g|]; [|cbn [or0]; lia]. cbn [or0]. specialize (X g eq_refl). unfold photon_size.
    pose proof (proj1 (en_sizes_bounds _ _ _ (proj1 (proj2 (gv_en_ok _ _ _ X))))). pose proof (ab_total_nonneg (gv_ang g)). pose proof (len_nonneg (gv_gpd g)). pose proof (len_nonneg (gv_mts g)).
    pose proof (len_nonneg (bl_layout true (gv_sigw g))). pose proof (len_nonneg (gv_ang g)). pose proof (len_nonneg (gv_en g)). pose proof (len_nonneg (gv_yp g)). lia. }
  assert (P2 : or0 delayed_size (v_delayed v) = or0 (fun d => len (nu_w (ITab (dv_nbt d) (dv_int d) (dv_x d) (dv_y d)) None)) (v_delayed v) + or0 (fun d => len (bd_w (dv_groups d))) (v_delayed v)
      + or0 (fun d => len (dv_en d) + dv_n d) (v_delayed v)
    /\ 0 <= or0 (fun d => len (nu_w (ITab (dv_nbt d) (dv_int d) (dv_x d) (dv_y d)) None)) (v_delayed v) /\ 0 <= or0 (fun d => len (bd_w (dv_groups d))) (v_delayed v) /\ 0 <= or0 (fun d => len (dv_en d) + dv_n d) (v_delayed v)
    /\ 0 <= or0 (fun d => len (dv_groups d)) (v_delayed v) <= or0 delayed_size (v_delayed v)).
  { pose proof (v_delayed_ok _ _ V) as X. destruct (v_delayed v) as [d|]; [|cbn [or0]; lia]. cbn [or0]. specialize (X d eq_refl). unfold delayed_size.
    destruct (dv_en_ok _ _ X) as (_ & Y & Z). pose proof (proj1 (en_sizes_bounds _ _ _ Y)). nonneg. lia. }
  destruct P1 as (P1 & Q1 & Q2 & Q3 & Q4 & Q5 & Q6), P2 as (P2 & R1 & R2 & R3 & R4).
  pose proof (len_nonneg (v_en v)). pose proof (len_nonneg (v_mts v)). pose proof (len_nonneg (v_dlw v)). pose proof (len_nonneg (v_particles v)). pose proof (len_nonneg (v_ang v)).
  assert (A : Forall (fun x => 0 <= x) (ce_piece_sizes v)).
  { unfold ce_piece_sizes. repeat (constructor; [first [apply len_nonneg|lia]|]). constructor. }
  pose proof (len_nonneg (bl_layout true (map sig_words (v_sig v)))) as LB.
  assert (S : sumZ (ce_piece_sizes v) <= ce_size v).
  { unfold ce_piece_sizes, sumZ, ce_size. cbn [fold_right]. rewrite P1, P2. fold (sumZ (map particle_size (v_particles v))). lia. }
  assert (B : forall k, 0 <= before v k <= ce_size v) by (intros k; pose proof (sumZ_firstn_bounds _ A k); unfold before; lia).
  assert (C : len (v_mts v) <= ce_size v /\ len (v_dlw v) + 1 <= ce_size v /\ or0 (fun g => len (gv_mts g)) (v_photon v) <= ce_size v /\ 2 * len (v_particles v) <= ce_size v /\ or0 delayed_size (v_delayed v) <= ce_size v
    /\ len (bl_layout true (map sig_words (v_sig v))) <= ce_size v) by (unfold ce_size; lia).
  destruct C as (C1 & C2 & C3 & C4 & C5 & C6).
  assert (FB : 0 <= f <= 3 * ce_size v + 2).
  { destruct (in_dec Z.eq_dec 18 (v_mts v)) as [I|I]; [|rewrite (proj2 F I); lia]. destruct (proj1 F I) as (k & _ & ->).
    assert (SB : 0 <= sumZ (map (fun e => len (sig_words e)) (firstn k (v_sig v))) <= len (bl_layout true (map sig_words (v_sig v)))).
    { rewrite len_bl_layout, len_map, len_concat_sum, map_map, <- firstn_map. pose proof (len_nonneg (v_sig v)).
      pose proof (sumZ_firstn_bounds (map (fun e => len (sig_words e)) (v_sig v)) ltac:(apply Forall_forall; intros y Hy; apply in_map_iff in Hy as (e & <- & _); apply len_nonneg) k). lia. }
    specialize (B 5%nat). lia. }
  split; [reflexivity|].
  pose proof (B 0%nat). pose proof (B 1%nat). pose proof (B 2%nat). pose proof (B 3%nat). pose proof (B 4%nat). pose proof (B 5%nat). pose proof (B 6%nat). pose proof (B 7%nat). pose proof (B 8%nat). pose proof (B 9%nat).
  pose proof (B 10%nat). pose proof (B 11%nat). pose proof (B 12%nat). pose proof (B 13%nat). pose proof (B 14%nat). pose proof (B 15%nat). pose proof (B 16%nat). pose proof (B 17%nat). pose proof (B 18%nat).
  unfold ce_places. generalize dependent (before v). intros b B. intros.
  destruct (given (v_photon v)), (given (v_delayed v)), (given (v_unr v)), (given (v_nu v)), (v_particles v); repeat (constructor; [lia|]); constructor.
Qed.
Lemma exact_zero : dbl 0 = S754_zero false.
Proof. reflexivity. Qed.
Lemma fixed_exact_zero p : fixed_exact p (dbl 0).
Proof. exists false, 0. split; [|rewrite nearest_zero; reflexivity]. assert (0 < 10 ^ 15) by reflexivity. lia. Qed.
Lemma exact_printable p x : (p <= 14)%nat -> sci_exact p x -> printable x.
Proof. intros H E. destruct (sci_exact_range p x ltac:(lia) E) as (A & B & C & D). repeat split; assumption. Qed.

(** A table built from valid values, with a header that fits and XSS words of at most 13 digits, is written to
    a text; what is read from it has the same header and data and makes the same table, which returns the values. *)
Theorem C44_continuous_energy_from_values : forall rd bm asrt esrt z a st h zaid c v,
  reads_correctly rd -> sort_contract asrt -> eqb_sort_contract esrt ->
  match h with Legacy h => header_ok h | Modern g => header201_ok g end -> exact_header h ->
  zaid_of h = zaid ++ [c] -> In c ["c"; "h"; "o"; "r"; "s"; "a"]%char ->
  ce_valid esrt v -> ce_size v < 300000000 -> 101 + v_n v < max_words ->
  0 <= z -> 0 <= a -> 0 <= st < 10 ^ 9 -> 1000 * z + a < 10 ^ 9 -> ~ (st = 0 /\ z = 0 /\ a = 0) ->
  exists i t, ce_build bm asrt esrt v = Ok i /\ ce_of bm z a st (zaid_of h) i = Ok t /\ ce_returns bm v t
    /\ (Forall (sci_exact 12) (d_xss (ct_data t)) -> saved (ce_make bm) rd bm h (ct_data t) t).
Proof.
  intros rd bm asrt esrt z a st h zaid c v R Hs He HH EH Ez Hc V B B' Hz Ha Hst Hza N. assert (B1 : ce_size v < max_words) by (unfold max_words; lia).
  rewrite Ez. destruct (ce_from_values bm asrt esrt v Hs He V B1 B') as (i & s & E & I & SZ & FD & RD & DN & RT & L & M & CC).
  destruct (C21_continuous_energy_round_trip bm z a st zaid c i s Hc I SZ FD RD DN Hz Ha ltac:(lia) N) as (f & t & F & T & T1 & T2 & T3).
  destruct (ce_headers v s z a st f CC L M) as (H1 & H2 & H3). specialize (H3 F). destruct (ce_places_bounds _ v f V H3) as [PL PB].
  exists i, t. split; [exact E|]. split; [exact T|]. split; [apply RT; exact T3|]. intros X.
  rewrite <- Ez in T. apply (C44_continuous_energy rd bm z a st h i t); [exact R|exact T| |].
  - split; [exact HH|]. cbn [snd]. rewrite T2 in *. cbn [d_xss] in X. split.
    { repeat split; cbn [d_iz d_aw d_nxs d_jxs]; rewrite ?H1, ?H2; try reflexivity; exact PL. }
    cbn [d_iz d_aw d_nxs d_jxs d_xss]. rewrite H1, H2.
    split; [repeat (constructor; [vm_compute; lia|]); constructor|].
    split; [repeat (constructor; [split; [apply printable_compute; vm_compute; reflexivity|vm_compute; lia]|]); constructor|].
    assert (W : forall n, 0 <= n < 10 ^ 9 -> (length (show_Z n) <= 9)%nat) by (intros n Hn; apply length_show_Z; [exact Hn|lia]).
    pose proof (ce_size_parts _ _ V) as (N1 & N2 & N3 & N4 & N5 & N6 & N7).
    split.
    { assert (C : 0 <= len (v_en v) <= ce_size v /\ 0 <= len (v_mts v) <= ce_size v /\ 0 <= len (v_dlw v) <= ce_size v /\ 0 <= len (v_particles v) <= ce_size v
          /\ 0 <= or0 (fun g => len (gv_mts g)) (v_photon v) <= or0 photon_size (v_photon v) /\ or0 photon_size (v_photon v) <= ce_size v
          /\ 0 <= or0 (fun d => len (dv_groups d)) (v_delayed v) <= or0 delayed_size (v_delayed v) /\ or0 delayed_size (v_delayed v) <= ce_size v).
      { pose proof (len_nonneg (v_en v)). pose proof (len_nonneg (v_mts v)). pose proof (len_nonneg (v_dlw v)). pose proof (len_nonneg (v_particles v)). pose proof (len_nonneg (v_ang v)).
        pose proof (len_nonneg (bl_layout true (map sig_words (v_sig v)))).
        assert (P1 : 0 <= or0 (fun g => len (gv_mts g)) (v_photon v) <= or0 photon_size (v_photon v)).
        { pose proof (v_photon_ok _ _ V) as Y. destruct (v_photon v) as [g|]; [|cbn [or0]; lia]. cbn [or0]. specialize (Y g eq_refl). unfold photon_size.
          pose proof (proj1 (en_sizes_bounds _ _ _ (proj1 (proj2 (gv_en_ok _ _ _ Y))))). pose proof (ab_total_nonneg (gv_ang g)). pose proof (len_nonneg (gv_gpd g)). pose proof (len_nonneg (gv_mts g)).
          pose proof (len_nonneg (bl_layout true (gv_sigw g))). pose proof (len_nonneg (gv_ang g)). pose proof (len_nonneg (gv_en g)). pose proof (len_nonneg (gv_yp g)). lia. }
        assert (P2 : 0 <= or0 (fun d => len (dv_groups d)) (v_delayed v) <= or0 delayed_size (v_delayed v)).
        { pose proof (v_delayed_ok _ _ V) as Y. destruct (v_delayed v) as [d|]; [|cbn [or0]; lia]. cbn [or0]. specialize (Y d eq_refl). unfold delayed_size.
          destruct (dv_en_ok _ _ Y) as (_ & Y1 & Y2). pose proof (proj1 (en_sizes_bounds _ _ _ Y1)). nonneg. lia. }
        unfold ce_size. lia. }
      unfold ce_numbers. cbn [app tl zeros repeat]. change (10 ^ 9) with 1000000000 in *. repeat (constructor; [apply W; lia|]). constructor. }
    split; [eapply Forall_impl; [|exact PB]; intros n Hn; cbv beta in Hn; apply W; change (10 ^ 9) with 1000000000; lia|].
    split; [rewrite L; change (10 ^ 9) with 1000000000; lia|]. eapply Forall_impl; [|exact X]. intros x Hx. exact (exact_printable 12 x ltac:(lia) Hx).
  - split; [exact EH|]. cbn [snd]. rewrite T2 in *. split; [|split].
    + cbn [d_aw]. apply Forall_forall. intros x Hx. apply repeat_spec in Hx. subst x. apply fixed_exact_zero.
    + exact X.
    + cbn [d_nxs d_xss]. rewrite H1, L. reflexivity.
Qed.
Print Assumptions C44_continuous_energy_from_values.

(** * Examples *)
Definition same_double (x y : double) : bool :=
  match x, y with
  | S754_zero s, S754_zero s' => Bool.eqb s s'
  | S754_finite s m e, S754_finite s' m' e' => Bool.eqb s s' && Pos.eqb m m' && Z.eqb e e'
  | _, _ => false
  end.
Lemma same_double_eq x y : same_double x y = true -> x = y.
Proof.
  destruct x as [s|s| |s m e], y as [s'|s'| |s' m' e']; cbn [same_double]; try discriminate; intros H.
  - apply eqb_prop in H. congruence.
  - apply andb_prop in H as [H H3]. apply andb_prop in H as [H1 H2]. apply eqb_prop in H1. apply Pos.eqb_eq in H2. apply Z.eqb_eq in H3. congruence.
Qed.
Definition whole (x : double) : bool := match sf_trunc x with Some n => (Z.abs n <? 10 ^ 13) && same_double x (dbl n) | None => false end.
Lemma whole_exact x : whole x = true -> sci_exact 12 x.
Proof.
  unfold whole. destruct (sf_trunc x) as [n|]; [|discriminate]. intros H. apply andb_prop in H as [H1 H2]. apply same_double_eq in H2. rewrite H2. apply C44_whole_numbers_are_exact. apply Z.ltb_lt. exact H1.
Qed.
Lemma fixed_exact_compute p s q x : (0 <=? q) && (q <=? 10 ^ 15) && same_double x (nearest_double (s, q, - Z.of_nat p)) = true -> fixed_exact p x.
Proof. intros H. apply andb_prop in H as [H H3]. apply andb_prop in H as [H1 H2]. exists s, q. split; [lia|]. apply same_double_eq. exact H3. Qed.
Lemma sci_exact_compute p s q k x : (10 ^ Z.of_nat p <=? q) && (q <? 10 ^ (Z.of_nat p + 1)) && (-306 <=? k) && (k <=? 307) && same_double x (nearest_double (s, q, k - Z.of_nat p)) = true -> sci_exact p x.
Proof. intros H. apply andb_prop in H as [H H3]. apply andb_prop in H as [H H2]. apply andb_prop in H as [H H1]. apply andb_prop in H as [H H0]. right. exists s, q, k. split; [lia|]. split; [lia|]. apply same_double_eq. exact H3. Qed.

Example C44_header_exact : exact_header (Legacy sample_header) /\ exact_header (Modern sample_201).
Proof.
  split; (split; [apply (fixed_exact_compute 6 false 999167); vm_compute; reflexivity|apply (sci_exact_compute 4 false 25301 (-8)); vm_compute; reflexivity]).
Qed.
(** the atomic weight ratio 0.999167 and the energies 1.5 and 2e7 are read back as they are; one third is not *)
Example C44_digits : sci_exact 12 (num "1.5") /\ sci_exact 12 (num "-2e7") /\ read_double (show_sci "E" 12 (num "0.33333333333333333")) <> Some (num "0.33333333333333333").
Proof.
  split; [apply (sci_exact_compute 12 false 1500000000000 0); vm_compute; reflexivity|]. split; [apply (sci_exact_compute 12 true 2000000000000 7); vm_compute; reflexivity|].
  intros H. assert (X : match read_double (show_sci "E" 12 (num "0.33333333333333333")) with Some x => same_double x (num "0.33333333333333333") | None => false end = false) by (vm_compute; reflexivity).
  rewrite H in X. vm_compute in X. discriminate X.
Qed.
(** the 443 words of the continuous-energy table of C21, with all optional parts, and a header *)
Example C44_continuous_example : exists i t, ce_build Debug an_isort eqb_isort PropsContinuous.ex_ce = Ok i
  /\ ce_of Debug 92 235 0 (txt "1001.80c") i = Ok t /\ ce_returns Debug PropsContinuous.ex_ce t /\ saved (ce_make Debug) read_double Debug (Legacy sample_header) (ct_data t) t.
Proof.
  destruct C21_valid as (V & _ & B').
  destruct (C44_continuous_energy_from_values read_double Debug an_isort eqb_isort 92 235 0 (Legacy sample_header) (txt "1001.80") "c"%char PropsContinuous.ex_ce
    (fun t x H => H) an_isort_contract eqb_isort_contract (proj1 C27_example) (proj1 C44_header_exact) eq_refl ltac:(left; reflexivity) V ltac:(vm_compute; reflexivity) B' ltac:(lia) ltac:(lia) ltac:(vm_compute; split; [discriminate|reflexivity]) ltac:(vm_compute; reflexivity) ltac:(lia))
    as (i & t & E & T & RT & X).
  exists i, t. split; [exact E|]. split; [exact T|]. split; [exact RT|]. apply X. clear X RT.
  assert (F : match ce_build Debug an_isort eqb_isort PropsContinuous.ex_ce with Ok i => match ce_of Debug 92 235 0 (txt "1001.80c") i with Ok t => forallb whole (d_xss (ct_data t)) | _ => false end | _ => false end = true) by (vm_compute; reflexivity).
  rewrite E in F. change (zaid_of (Legacy sample_header)) with (txt "1001.80c") in T. rewrite T in F. rewrite forallb_forall in F. apply Forall_forall. intros x Hx. apply whole_exact, F, Hx.
Qed.
