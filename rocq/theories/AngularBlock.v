(** [base::AngularDistributionBlock] (AND, ANDP, ANDH). *)
From Coq Require Import ZArith Bool List Lia Permutation Sorted.
From Coq Require Import ZifyBool ZifyNat.
From Verif Require Export Angular.
Import ListNotations.
Open Scope Z_scope.

(** The variant of src/ACEtk/base/AngularDistributionBlock.hpp:28-30:
    FullyIsotropicDistribution, DistributionGivenElsewhere,
    AngularDistributionData. *)
Inductive adist (T : Type) := DIso | DElse | DData (x : T).
Arguments DIso {T}. Arguments DElse {T}. Arguments DData {T} _.

(** src/ACEtk/base/AngularDistributionBlock.hpp:34-38 *)
Record angularBlock := AngularBlock {
  ab_v : view; ab_nr : Z; ab_iter : Z; ab_data : list (adist angularData); ab_zero : bool }.

(** The loop of src/ACEtk/base/AngularDistributionBlock/src/generateXSS.hpp:7-35.
    An AngularDistributionData is given by the contents of its distributions();
    lines 26-28 rebuild it with the locator (a double converted to size_t). *)
Fixpoint ab_append bm srt (nr : Z) (index : nat) (ds : list (adist (list (angular (list double)))))
    (xss : list double) : outcome (list double) :=
  match ds with
  | [] => Ok xss
  | d :: r =>
      xss <- (match d with
              | DIso => upd index (dbl 0) xss
              | DElse => upd index (dbl (-1)) xss
              | DData dists =>
                  let x := dbl (u64 (len xss - nr + 1)) in
                  xss <- upd index x xss ;;
                  locb <- trunc_to_size x ;;
                  temp <- an_of bm srt dists locb ;;
                  l <- xss_all (an_v temp) ;;
                  Ok (xss ++ l)
              end) ;;
      ab_append bm srt nr (S index) r xss
  end.

(** generateXSS, lines 1-38 *)
Definition ab_generateXSS bm srt ds : outcome (list double) :=
  ab_append bm srt (len ds) 0 ds (repeat (dbl 0) (length ds)).

(** LAND( index ), src/ACEtk/base/AngularDistributionBlock.hpp:73-80 *)
Definition ab_LAND_ bm (v : view) (nr : Z) (zero : bool) (index : Z) : outcome Z :=
  _ <- check bm (verifyIndex (u64 index) (if zero then 0 else 1) nr) ;;
  ixss bm v (index + (if zero then 1 else 0)).
Definition ab_LAND bm o index := ab_LAND_ bm (ab_v o) (ab_nr o) (ab_zero o) index.
(** isFullyIsotropic, isGiven: lines 105-122 *)
Definition ab_isFullyIsotropic bm o index : outcome bool := l <- ab_LAND bm o index ;; Ok (l =? 0).
Definition ab_isGiven bm o index : outcome bool := l <- ab_LAND bm o index ;; Ok (0 <=? l).

(** The search for the next locator,
    src/ACEtk/base/AngularDistributionBlock/src/generateBlocks.hpp:23-31 *)
Fixpoint ab_right bm (v : view) nr zero (xand locator : Z) (nexts : list Z) : outcome Z :=
  match nexts with
  | [] => Ok (vend v)
  | next :: r =>
      l <- ab_LAND_ bm v nr zero next ;;
      let nextlocator := u64 (xand + l - 1) in
      if locator <? nextlocator then iter bm v nextlocator else ab_right bm v nr zero xand locator r
  end.

(** The body of the loop, generateBlocks.hpp:8-38 *)
Definition ab_distribution bm (v : view) nr zero (iter_ index : Z) : outcome (adist angularData) :=
  l <- ab_LAND_ bm v nr zero index ;;
  if 0 <=? l then
    if l =? 0 then Ok DIso
    else
      let xand := u64 (iter_ - vbeg v) + 1 in
      let land := u64 l in
      let locator := u64 (xand + land - 1) in
      left <- iter bm v locator ;;
      right <- ab_right bm v nr zero xand locator (seqZ (index + 1) (Z.to_nat (nr - index))) ;;
      d <- an_make bm land (sub v left right) ;; Ok (DData d)
  else Ok DElse.

(** generateBlocks, lines 1-40 *)
Definition ab_generateBlocks bm (v : view) nr zero iter_ : outcome (list (adist angularData)) :=
  mapM (ab_distribution bm v nr zero iter_)
    (seqZ (if zero then 0 else 1) (Z.to_nat (nr + (if zero then 1 else 0)))).

(** Constructors from data, src/ACEtk/base/AngularDistributionBlock/src/ctor.hpp:6-26, 60-74:
    without zero index, and with an elastic distribution put first
    (insertZero.hpp:1-6); nr is converted to unsigned int. *)
Definition ab_of bm srt zero ds nr : outcome angularBlock :=
  l <- ab_generateXSS bm srt ds ;;
  let v := own l in
  let nr := u32 nr in
  let it := vbeg v + nr + (if zero : bool then 1 else 0) in
  data <- ab_generateBlocks bm v nr zero it ;;
  Ok (AngularBlock v nr it data zero).
Definition ab_of_data bm srt ds := ab_of bm srt false ds (len ds).
Definition ab_of_elastic bm srt d0 ds := ab_of bm srt true (d0 :: ds) (len ds).

(** Constructor from iterators, ctor.hpp:85-93, verifySize.hpp:1-23 *)
Definition ab_make bm (v : view) (data nr : Z) zero : outcome angularBlock :=
  _ <- throw_if (u64 (data - vbeg v) <? nr + (if zero : bool then 1 else 0)) StdException ;;
  ds <- ab_generateBlocks bm v nr zero data ;;
  Ok (AngularBlock v nr data ds zero).

(** angularDistributionData( index ), AngularDistributionBlock.hpp:140-147 *)
Definition ab_datum bm o index : outcome (adist angularData) :=
  _ <- check bm (verifyIndex (u64 index) (if ab_zero o then 0 else 1) (ab_nr o)) ;;
  at_ (ab_data o) (if ab_zero o then index + 1 else index).

(** ** Specification *)

Definition adw (e : adist (list double)) : list double := match e with DData c => c | _ => [] end.
Definition land_of (e : adist (list double)) (base : Z) : Z :=
  match e with DIso => 0 | DElse => -1 | DData _ => base end.
Fixpoint lands (base : Z) (es : list (adist (list double))) : list Z :=
  match es with [] => [] | e :: r => land_of e base :: lands (base + len (adw e)) r end.
Definition adws (es : list (adist (list double))) : list double := concat (map adw es).
Definition ab_layout es := map dbl (lands 1 es) ++ adws es.

Lemma adws_app a b : adws (a ++ b) = adws a ++ adws b.
Proof. unfold adws. rewrite map_app, concat_app. reflexivity. Qed.
Lemma adws_cons d r : adws (d :: r) = adw d ++ adws r.
Proof. reflexivity. Qed.
Lemma length_lands base es : length (lands base es) = length es.
Proof. revert base; induction es as [|d r IH]; intros base; cbn; [reflexivity|]. rewrite IH; reflexivity. Qed.
Lemma lands_app base a b : lands base (a ++ b) = lands base a ++ lands (base + len (adws a)) b.
Proof.
  revert base; induction a as [|d a IH]; intros base; cbn [app lands].
  - change (adws []) with (@nil double). rewrite len_nil, Z.add_0_r. reflexivity.
  - rewrite IH, adws_cons, len_app, Z.add_assoc. reflexivity.
Qed.
Lemma len_ab_layout es : len (ab_layout es) = len es + len (adws es).
Proof. unfold ab_layout. rewrite len_app, len_map. unfold len at 1. rewrite length_lands. reflexivity. Qed.

Section AB.
  Variables (bm : build) (v : view) (zero : bool) (es : list (adist (list double))).
  Hypothesis Hv : has v (ab_layout es).
  Hypothesis Hne : forall c, In (DData c) es -> c <> [].
  (** One entry for index 0 if there is a zero index. *)
  Let nr := len es - (if zero then 1 else 0).
  Let base := if zero then 0 else 1.
  Hypothesis Hnr : 0 <= nr.

  Let B : len es + len (adws es) < 2 ^ 31.
  Proof. pose proof (has_bounds _ _ Hv) as B. rewrite len_ab_layout in B. lia. Qed.

  Lemma ab_LAND_has pre e post i : es = pre ++ e :: post -> i = base + len pre ->
    ab_LAND_ bm v nr zero i = Ok (land_of e (1 + len (adws pre))).
  Proof.
    intros E ->. unfold ab_LAND_.
    assert (Ln : len es = len pre + 1 + len post) by (rewrite E, len_app, len_cons; lia).
    assert (Lc : len (adws es) = len (adws pre) + len (adw e) + len (adws post)).
    { rewrite E, adws_app, adws_cons, !len_app. lia. }
    pose proof (len_nonneg pre); pose proof (len_nonneg post); pose proof (len_nonneg (adws pre));
      pose proof (len_nonneg (adw e)); pose proof (len_nonneg (adws post)).
    rewrite u64_small by (unfold base; destruct zero; lia).
    rewrite check_verifyIndex by (unfold base, nr; destruct zero; lia). cbn [bind].
    apply (ixss_at _ _ (map dbl (lands 1 pre)) _ (map dbl (lands (1 + len (adws pre) + len (adw e)) post) ++ adws es)).
    - apply (has_eq _ _ _ Hv). unfold ab_layout. rewrite E at 1. rewrite lands_app, map_app. cbn [lands map]. las.
    - rewrite len_map. unfold len at 2. rewrite length_lands. fold (len pre).
      unfold base. destruct zero; lia.
    - destruct e; cbn [land_of]; lia.
  Qed.

  Lemma ab_right_has locator pre post :
    es = pre ++ post -> es <> [] -> len es + 1 <= locator < len es + 1 + len (adws pre) ->
    exists r, ab_right bm v nr zero (len es + 1) locator (seqZ (base + len pre) (length post)) = Ok r
      /\ vbeg v + len es + len (adws pre) <= r <= vend v.
  Proof.
    revert pre; induction post as [|e post IH]; intros pre E Hes Hloc; cbn [length seqZ ab_right].
    - exists (vend v). split; [reflexivity|]. pose proof (has_bounds _ _ Hv) as Bv. rewrite len_ab_layout in Bv.
      rewrite app_nil_r in E. subst pre. lia.
    - rewrite (ab_LAND_has _ _ _ _ E eq_refl). cbn [bind].
      assert (Hl : 0 < len es) by (destruct es; [congruence|rewrite len_cons; nonneg; lia]).
      assert (E' : es = (pre ++ [e]) ++ post) by (rewrite E; las).
      assert (Ladw : len (adws (pre ++ [e])) = len (adws pre) + len (adw e)).
      { rewrite adws_app, adws_cons, !len_app. change (adws []) with (@nil double). rewrite len_nil. lia. }
      assert (Lc : len (adws es) = len (adws pre) + len (adw e) + len (adws post)).
      { rewrite E, adws_app, adws_cons, !len_app. lia. }
      pose proof (len_nonneg (adws pre)); pose proof (len_nonneg (adw e)); pose proof (len_nonneg (adws post)).
      assert (Hnext : land_of e (1 + len (adws pre)) <= 0 -> 
        exists r, ab_right bm v nr zero (len es + 1) locator (seqZ (base + len pre + 1) (length post)) = Ok r
          /\ vbeg v + len es + len (adws (pre ++ [e])) <= r <= vend v).
      { intros _. destruct (IH (pre ++ [e]) E' Hes ltac:(lia)) as (r & Hr & HR).
        exists r. rewrite len_app in Hr. change (len [e]) with 1 in Hr. rewrite Z.add_assoc in Hr. auto. }
      destruct e as [| |c]; cbn [land_of] in *.
      + rewrite u64_small by lia. destruct (Z.ltb_spec locator (len es + 1 + 0 - 1)); [lia|].
        destruct Hnext as (r & Hr & HR); [lia|]. exists r. split; [exact Hr|lia].
      + rewrite u64_small by lia. destruct (Z.ltb_spec locator (len es + 1 + -1 - 1)); [lia|].
        destruct Hnext as (r & Hr & HR); [lia|]. exists r. split; [exact Hr|lia].
      + rewrite u64_small by lia. destruct (Z.ltb_spec locator (len es + 1 + (1 + len (adws pre)) - 1)); [|lia].
        pose proof (has_bounds _ _ Hv) as Bv. rewrite len_ab_layout in Bv.
        rewrite (iter_has _ _ _ _ Hv) by lia. eexists; split; [reflexivity|]. lia.
  Qed.

  Variable R : nat -> angularData -> Prop.
  Hypothesis Hgd : forall pre c post w, es = pre ++ DData c :: post -> has w c ->
    exists d, an_make bm (1 + len (adws pre)) w = Ok d /\ R (length pre) d.

  Definition ab_same (k : nat) (d : adist angularData) : Prop :=
    match nth_error es k, d with
    | Some DIso, DIso | Some DElse, DElse => True
    | Some (DData _), DData a => R k a
    | _, _ => False
    end.

  Lemma ab_distribution_has pre e post i : es = pre ++ e :: post -> i = base + len pre ->
    exists d, ab_distribution bm v nr zero (vbeg v + len es) i = Ok d /\ ab_same (length pre) d.
  Proof.
    intros E Hi. unfold ab_distribution. rewrite (ab_LAND_has _ _ _ _ E Hi). cbn [bind].
    unfold ab_same. assert (Hn : nth_error es (length pre) = Some e) by (rewrite E; apply nth_error_mid). rewrite Hn.
    assert (Ln : len es = len pre + 1 + len post) by (rewrite E, len_app, len_cons; lia).
    assert (Lc : len (adws es) = len (adws pre) + len (adw e) + len (adws post)).
    { rewrite E, adws_app, adws_cons, !len_app. lia. }
    pose proof (len_nonneg pre); pose proof (len_nonneg post); pose proof (len_nonneg (adws pre));
      pose proof (len_nonneg (adw e)); pose proof (len_nonneg (adws post)).
    destruct e as [| |c]; cbn [land_of].
    - eexists; split; [reflexivity|exact I].
    - eexists; split; [reflexivity|exact I].
    - destruct (Z.leb_spec 0 (1 + len (adws pre))); [|lia].
      destruct (Z.eqb_spec (1 + len (adws pre)) 0); [lia|].
      replace (vbeg v + len es - vbeg v) with (len es) by lia.
      rewrite (u64_small (len es)) by lia. rewrite (u64_small (1 + len (adws pre))) by lia.
      rewrite u64_small by lia.
      pose proof (has_bounds _ _ Hv) as Bv. rewrite len_ab_layout in Bv.
      rewrite (iter_has _ _ _ _ Hv) by lia. cbn [bind].
      assert (Hc : 0 < len c).
      { pose proof (Hne c) as Hc. destruct c; [exfalso; apply Hc; [rewrite E; apply in_elt|reflexivity]|].
        rewrite len_cons. nonneg. lia. }
      assert (E' : es = (pre ++ [DData c]) ++ post) by (rewrite E; las).
      assert (Ladw : len (adws (pre ++ [DData c])) = len (adws pre) + len c).
      { rewrite adws_app, adws_cons, !len_app. change (adws []) with (@nil double). rewrite len_nil. cbn [adw]. lia. }
      destruct (ab_right_has (len es + 1 + (1 + len (adws pre)) - 1) (pre ++ [DData c]) post E')
        as (r & Hr & HR).
      { intros Ez. rewrite Ez in E. destruct pre; discriminate. }
      { lia. }
      rewrite len_app in Hr. change (len [DData c]) with 1 in Hr.
      replace (seqZ (i + 1) (Z.to_nat (nr - i))) with (seqZ (base + (len pre + 1)) (length post)).
      2:{ f_equal; [lia|]. unfold nr, base in *. unfold len in *. destruct zero; lia. }
      rewrite Hr. cbn [bind].
      destruct (Hgd pre c post (sub v (vbeg v + (len es + 1 + (1 + len (adws pre)) - 1) - 1) r) E) as (d & Hd & Rd).
      { 
        assert (Elay : ab_layout es = (map dbl (lands 1 es) ++ adws pre) ++ c ++ adws post).
        { unfold ab_layout. rewrite E at 2. rewrite adws_app, adws_cons. las. }
        assert (Ll : len (map dbl (lands 1 es) ++ adws pre) = len es + len (adws pre)).
        { rewrite len_app, len_map. unfold len at 1. rewrite length_lands. reflexivity. }
        apply (sub_has v (map dbl (lands 1 es) ++ adws pre) c).
        - apply (has_app _ _ (adws post)). apply (has_eq _ _ _ Hv). rewrite Elay. las.
        - rewrite Ll. lia.
        - rewrite Ll. lia. }
      rewrite Hd. cbn [bind]. eexists; split; [reflexivity|exact Rd].
  Qed.

  Lemma ab_blocks_has :
    exists ds, ab_generateBlocks bm v nr zero (vbeg v + len es) = Ok ds
      /\ length ds = length es /\ forall k d, nth_error ds k = Some d -> ab_same k d.
  Proof.
    unfold ab_generateBlocks.
    replace (Z.to_nat (nr + (if zero then 1 else 0))) with (length es) by (unfold nr, len; destruct zero; lia).
    apply (mapM_seq _ ab_same (length es) base 0).
    intros k Hk. cbn [Nat.add].
    destruct (nth_error es k) as [e|] eqn:Ek; [|apply nth_error_None in Ek; lia].
    destruct (nth_split_len _ _ _ Ek) as (pre & post & E & Lpre).
    destruct (ab_distribution_has pre e post (base + Z.of_nat k) E ltac:(unfold len; lia)) as (d & Hd & Sd).
    exists d. rewrite Lpre in Sd. auto.
  Qed.
End AB.

(** ** Writing *)

(** Number of words an entry takes. *)
Definition ab_size (e : adist (list (angular (list double)))) : Z :=
  match e with DData ds => 1 + 2 * len ds + len (bodies ds) | _ => 0 end.
Definition ab_total (es : list (adist (list (angular (list double))))) : Z :=
  fold_right (fun e s => ab_size e + s) 0 es.

(** [ab_entry land e w]: w are the words for entry e at locator land. *)
Definition ab_entry srt (land : Z) (e : adist (list (angular (list double)))) (w : adist (list double)) : Prop :=
  match e, w with
  | DIso, DIso | DElse, DElse => True
  | DData ds, DData l => an_generateXSS srt land ds = Ok l /\ l = an_layout land (srt ds)
  | _, _ => False
  end.

Fixpoint ab_entries srt (base : Z) es ws : Prop :=
  match es, ws with
  | [], [] => True
  | e :: es, w :: ws => ab_entry srt base e w /\ ab_entries srt (base + len (adw w)) es ws
  | _, _ => False
  end.

Definition ab_ok (e : adist (list (angular (list double)))) : Prop :=
  match e with
  | DData ds => Forall (fun d => ang_energy d <> S754_nan) ds /\ Forall ang_valid ds
  | _ => True
  end.

Lemma ab_size_nonneg e : 0 <= ab_size e.
Proof. destruct e; cbn [ab_size]; nonneg; lia. Qed.
Lemma ab_total_nonneg es : 0 <= ab_total es.
Proof. induction es as [|e es IH]; cbn [ab_total fold_right]; [lia|]. pose proof (ab_size_nonneg e). fold (ab_total es). lia. Qed.

Lemma ab_append_spec bm srt nr locs data es :
  sort_contract srt -> Forall ab_ok es -> nr = len locs + len es ->
  1 + len data + ab_total es <= 2 ^ 31 ->
  exists ws, ab_entries srt (1 + len data) es ws /\
  ab_append bm srt nr (length locs) es (locs ++ repeat (dbl 0) (length es) ++ data)
    = Ok (locs ++ map dbl (lands (1 + len data) ws) ++ data ++ adws ws).
Proof.
  intros Hs. revert locs data; induction es as [|e es IH]; intros locs data Hok Hn Hb.
  - exists []. split; [exact I|]. cbn. rewrite app_nil_r. reflexivity.
  - inversion Hok as [|? ? He Hes]; subst.
    cbn [ab_append length repeat app]. cbn [ab_total fold_right] in Hb. fold (ab_total es) in Hb.
    pose proof (ab_total_nonneg es) as Tn. pose proof (len_nonneg data) as Dn.
    destruct e as [| |ds]; cbn [ab_size] in Hb.
    + rewrite upd_mid. cbn [bind].
      destruct (IH (locs ++ [dbl 0]) data Hes) as (ws & We & Wa); [rewrite len_app, !len_cons, len_nil; lia|lia|].
      exists (DIso :: ws). cbn [ab_entries ab_entry adw lands land_of map]. rewrite len_nil, Z.add_0_r.
      split; [auto|]. rewrite app_length in Wa. cbn [length] in Wa. rewrite Nat.add_1_r in Wa.
      replace (locs ++ dbl 0 :: repeat (dbl 0) (length es) ++ data)
        with ((locs ++ [dbl 0]) ++ repeat (dbl 0) (length es) ++ data) by las.
      rewrite Wa. rewrite adws_cons. f_equal. las.
    + rewrite upd_mid. cbn [bind].
      destruct (IH (locs ++ [dbl (-1)]) data Hes) as (ws & We & Wa); [rewrite len_app, !len_cons, len_nil; lia|lia|].
      exists (DElse :: ws). cbn [ab_entries ab_entry adw lands land_of map]. rewrite len_nil, Z.add_0_r.
      split; [auto|]. rewrite app_length in Wa. cbn [length] in Wa. rewrite Nat.add_1_r in Wa.
      replace (locs ++ dbl (-1) :: repeat (dbl 0) (length es) ++ data)
        with ((locs ++ [dbl (-1)]) ++ repeat (dbl 0) (length es) ++ data) by las.
      rewrite Wa. rewrite adws_cons. f_equal. las.
    + pose proof (len_nonneg ds) as Ln. pose proof (len_nonneg (bodies ds)) as Lbn.
      assert (E : u64 (len (locs ++ dbl 0 :: repeat (dbl 0) (length es) ++ data) - (len locs + len (DData ds :: es)) + 1)
                  = 1 + len data).
      { rewrite len_app, len_cons, len_app, len_repeat, len_cons. unfold len at 3.
        rewrite u64_small; unfold len in *; lia. }
      rewrite E. rewrite upd_mid. cbn [bind]. rewrite trunc_to_size_dbl by lia. cbn [bind].
      destruct He as [Hnan Hval].
      destruct (an_round_trip srt (1 + len data) ds Hs Hnan Hval ltac:(lia) ltac:(lia))
        as (l & sorted & G & Hp & Hso & El & _ & _ & Hof).
      assert (Esrt : l = an_layout (1 + len data) (srt ds)).
      { destruct (Hs ds Hnan) as [Hp' _].
        rewrite an_generateXSS_ok in G.
        - congruence.
        - symmetry. apply Permutation_length. exact Hp'.
        - lia.
        - rewrite <- (len_bodies_perm _ _ Hp'). lia. }
      assert (Ll : len l = 1 + 2 * len ds + len (bodies ds)).
      { rewrite El, len_an_layout. rewrite <- (len_bodies_perm _ _ Hp). unfold len at 1.
        rewrite <- (Permutation_length Hp). reflexivity. }
      destruct (Hof bm) as (o & Mo & Co); [unfold max_words; lia|].
      rewrite Mo. cbn [bind]. rewrite (xss_all_content _ _ Co). cbn [bind].
      destruct (IH (locs ++ [dbl (1 + len data)]) (data ++ l) Hes) as (ws & We & Wa).
      { rewrite len_app, !len_cons, len_nil; lia. }
      { rewrite len_app. lia. }
      exists (DData l :: ws). cbn [ab_entries ab_entry adw lands land_of map].
      rewrite len_app, Z.add_assoc in We. split; [auto|].
      rewrite app_length in Wa. cbn [length] in Wa. rewrite Nat.add_1_r in Wa.
      replace ((locs ++ dbl (1 + len data) :: repeat (dbl 0) (length es) ++ data) ++ l)
        with ((locs ++ [dbl (1 + len data)]) ++ repeat (dbl 0) (length es) ++ data ++ l) by las.
      rewrite Wa. rewrite adws_cons, len_app, Z.add_assoc. cbn [adw]. f_equal. las.
Qed.

Lemma ab_entries_app srt base es1 ws1 es2 ws2 : length es1 = length ws1 ->
  ab_entries srt base (es1 ++ es2) (ws1 ++ ws2) ->
  ab_entries srt base es1 ws1 /\ ab_entries srt (base + len (adws ws1)) es2 ws2.
Proof.
  revert base ws1; induction es1 as [|e es1 IH]; intros base [|w ws1] HL H; try discriminate; cbn [app ab_entries] in *.
  - split; [exact I|]. change (adws []) with (@nil double). rewrite len_nil, Z.add_0_r. exact H.
  - destruct H as [H1 H2]. destruct (IH _ ws1 ltac:(cbn in HL; lia) H2) as [A B].
    rewrite adws_cons, len_app, Z.add_assoc. auto.
Qed.
Lemma ab_entries_length srt base es ws : ab_entries srt base es ws -> length es = length ws.
Proof.
  revert base ws; induction es as [|e es IH]; intros base [|w ws] H; cbn in *; try contradiction; [reflexivity|].
  destruct H as [_ H]. rewrite (IH _ _ H). reflexivity.
Qed.
Lemma ab_entries_total srt base es ws : sort_contract srt -> Forall ab_ok es ->
  ab_entries srt base es ws -> len (adws ws) = ab_total es.
Proof.
  intros Hs. revert base ws; induction es as [|e es IH]; intros base [|w ws] Hok H; cbn [ab_entries] in *; try contradiction.
  - reflexivity.
  - inversion Hok as [|? ? He Hes]; subst. destruct H as [H1 H2].
    rewrite adws_cons, len_app, (IH _ _ Hes H2). cbn [ab_total fold_right]. fold (ab_total es).
    destruct e as [| |ds], w as [| |l]; cbn [ab_entry] in H1; try contradiction; try reflexivity.
    cbn [adw ab_size]. destruct H1 as [_ ->]. destruct He as [Hnan _]. destruct (Hs ds Hnan) as [Hp _].
    rewrite len_an_layout, <- (len_bodies_perm _ _ Hp). unfold len at 1. rewrite <- (Permutation_length Hp).
    unfold len; lia.
Qed.

(** What the block returns for an entry. *)
Definition ab_shows bm (e : adist (list (angular (list double)))) (d : adist angularData) : Prop :=
  match e, d with
  | DIso, DIso | DElse, DElse => True
  | DData ds, DData a =>
      an_NE bm a = Ok (len ds) /\ exists sorted, Permutation ds sorted /\ StronglySorted energy_le sorted
      /\ an_incidentEnergies bm a = Ok (map ang_energy sorted)
      /\ forall k x, nth_error sorted k = Some x ->
           exists o, an_datum bm a (Z.of_nat k + 1) = Ok o /\ ang_shows bm o x
  | _, _ => False
  end.

Lemma ab_round_trip bm srt es :
  sort_contract srt -> Forall ab_ok es -> len es + ab_total es < 2 ^ 31 ->
  exists l, ab_generateXSS bm srt es = Ok l /\ len l = len es + ab_total es
  /\ forall zero v, has v l -> (zero = true -> es <> []) ->
     let nr := len es - (if zero then 1 else 0) in
     let base := if zero then 0 else 1 in
     exists o, ab_make bm v (vbeg v + len es) nr zero = Ok o
       /\ ab_v o = v /\ ab_nr o = nr
       /\ ab_generateBlocks bm v nr zero (vbeg v + len es) = Ok (ab_data o)
       /\ forall k e, nth_error es k = Some e ->
            (exists d, ab_datum bm o (base + Z.of_nat k) = Ok d /\ ab_shows bm e d)
            /\ ab_isGiven bm o (base + Z.of_nat k) = Ok (match e with DElse => false | _ => true end)
            /\ ab_isFullyIsotropic bm o (base + Z.of_nat k) = Ok (match e with DIso => true | _ => false end).
Proof.
  intros Hs Hok Hb. pose proof (ab_total_nonneg es) as Tn. pose proof (len_nonneg es) as Ln.
  destruct (ab_append_spec bm srt (len es) [] [] es Hs Hok ltac:(rewrite len_nil; lia)
    ltac:(change (@len double []) with 0; lia)) as (ws & We & Wa).
  cbn [app length] in Wa. rewrite app_nil_r in Wa.
  change (@len double []) with 0 in *. rewrite Z.add_0_r in *.
  fold (ab_layout ws) in Wa. exists (ab_layout ws). split; [exact Wa|].
  pose proof (ab_entries_length _ _ _ _ We) as Lw. pose proof (ab_entries_total _ _ _ _ Hs Hok We) as Tw.
  assert (LLw : len ws = len es) by (unfold len; rewrite Lw; reflexivity).
  split; [rewrite len_ab_layout; lia|].
  intros zero v Hv Hz nr base.
  assert (Hsplit : forall k e, nth_error es k = Some e -> exists w prew postw,
    ws = prew ++ w :: postw /\ length prew = k /\ ab_entry srt (1 + len (adws prew)) e w).
  { intros k e Hk. destruct (nth_split_len _ _ _ Hk) as (pre & post & E & Lp).
    destruct (nth_error ws k) as [w|] eqn:Ew; [|apply nth_error_None in Ew; apply nth_error_len in Hk; unfold len in *; lia].
    destruct (nth_split_len _ _ _ Ew) as (prew & postw & E2 & Lp2).
    exists w, prew, postw. split; [exact E2|]. split; [exact Lp2|].
    rewrite E, E2 in We. apply ab_entries_app in We as [_ [W1 _]]; [exact W1|lia]. }
  assert (Hz' : 0 <= len ws - (if zero then 1 else 0)).
  { destruct zero; [|lia]. assert (0 < len ws); [|lia]. rewrite LLw. destruct es; [exfalso; apply (Hz eq_refl); reflexivity|].
    rewrite len_cons. nonneg. lia. }
  assert (Hne : forall c, In (DData c) ws -> c <> []).
  { intros c Hin. apply In_nth_error in Hin as (k & Hk).
    destruct (nth_error es k) as [e|] eqn:Ee; [|apply nth_error_None in Ee; apply nth_error_len in Hk; unfold len in *; lia].
    destruct (Hsplit _ _ Ee) as (w & prew & postw & E2 & Lp2 & En). rewrite E2, <- Lp2, nth_error_mid in Hk. injection Hk as ->.
    destruct e; cbn in En; try contradiction. destruct En as [_ ->]. discriminate. }
  set (R := fun (k : nat) (a : angularData) => forall e, nth_error es k = Some e -> ab_shows bm e (DData a)).
  destruct (ab_blocks_has bm v zero ws Hv Hne Hz' R) as (ds & Hds & Lds & Rds).
  { intros pre c post w E Hw.
    destruct (nth_error es (length pre)) as [e|] eqn:Ee.
    2:{ apply nth_error_None in Ee. rewrite Lw, E, app_length in Ee. cbn in Ee. lia. }
    destruct (Hsplit _ _ Ee) as (w' & prew & postw & E2 & Lp2 & En).
    assert (Ep : prew = pre /\ w' = DData c).
    { rewrite E in E2. clear -E2 Lp2. revert prew Lp2 E2; induction pre as [|a pre IH]; intros [|b prew] L E2; try discriminate; cbn in *.
      - injection E2 as <- _. auto.
      - injection E2 as <- E2. injection L as L. destruct (IH _ L E2) as [-> ->]. auto. }
    destruct Ep as [-> ->]. destruct e as [| |dd]; cbn [ab_entry] in En; try contradiction. destruct En as [G El].
    rewrite Forall_forall in Hok. pose proof (Hok _ (nth_error_In _ _ Ee)) as [Hnan Hval].
    assert (Sz : ab_size (DData dd) <= ab_total es - len (adws pre)).
    { assert (len c = ab_size (DData dd)).
      { cbn [ab_size]. destruct (Hs dd Hnan) as [Hp _]. rewrite El, len_an_layout, <- (len_bodies_perm _ _ Hp).
        unfold len at 1. rewrite <- (Permutation_length Hp). unfold len; lia. }
      rewrite <- Tw, E, adws_app, adws_cons, !len_app. cbn [adw]. nonneg. lia. }
    cbn [ab_size] in Sz. pose proof (len_nonneg (adws pre)) as Lpn.
    assert (0 < len es). { apply nth_error_len in Ee. lia. }
    destruct (an_round_trip srt (1 + len (adws pre)) dd Hs Hnan Hval ltac:(lia) ltac:(lia))
      as (l & sorted & G' & Hp & Hso & _ & Hh & _).
    assert (l = c) by congruence. subst l.
    destruct (Hh bm w Hw) as (o & Mo & Vo & NE & IE & _ & Da).
    exists o. split; [exact Mo|]. intros e' He'. rewrite Ee in He'. injection He' as <-. cbn [ab_shows].
    split; [exact NE|]. exists sorted. auto. }
  rewrite LLw in Hds. fold nr in Hds.
  assert (Bn : 0 <= nr) by (unfold nr; rewrite <- LLw; exact Hz').
  pose proof (has_bounds _ _ Hv) as Bv. rewrite len_ab_layout in Bv.
  unfold ab_make, throw_if. replace (vbeg v + len es - vbeg v) with (len es) by lia.
  rewrite u64_small by lia.
  destruct (Z.ltb_spec (len es) (nr + (if zero then 1 else 0))); [unfold nr in *; destruct zero; lia|]. cbn [bind].
  rewrite Hds. cbn [bind]. eexists; split; [reflexivity|]. cbn [ab_v ab_nr ab_data].
  split; [reflexivity|]. split; [reflexivity|]. split; [reflexivity|].
  intros k e Hk. pose proof (nth_error_len _ _ _ Hk) as Bk.
  destruct (Hsplit _ _ Hk) as (w & prew & postw & E2 & Lp2 & En).
  assert (HL : ab_LAND_ bm v nr zero (base + Z.of_nat k) = Ok (land_of w (1 + len (adws prew)))).
  { unfold nr. rewrite <- LLw. apply (ab_LAND_has bm v zero ws Hv Hne Hz' prew w postw _ E2). unfold base, len. lia. }
  pose proof (len_nonneg (adws prew)) as Lpw.
  split; [|split].
  - destruct (nth_error ds k) as [d|] eqn:Ed; [|apply nth_error_None in Ed; unfold len in *; lia].
    exists d. split.
    + unfold ab_datum. cbn [ab_zero ab_nr ab_data]. rewrite u64_small by (unfold base; destruct zero; lia).
      rewrite check_verifyIndex by (unfold base, nr; destruct zero; lia). cbn [bind].
      apply (at_has _ _ _ _ Ed); [unfold base; destruct zero; lia|]. unfold len in *. lia.
    + pose proof (Rds _ _ Ed) as S. unfold ab_same in S.
      assert (Ew : nth_error ws k = Some w) by (rewrite E2, <- Lp2; apply nth_error_mid).
      rewrite Ew in S. destruct e as [| |dd], w as [| |l]; cbn [ab_entry] in En; try contradiction; destruct d as [| |a]; try contradiction; cbn [ab_shows].
      * exact I.
      * exact I.
      * exact (S _ Hk).
  - unfold ab_isGiven, ab_LAND. cbn [ab_v ab_nr ab_zero]. rewrite HL. cbn [bind]. f_equal.
    destruct e as [| |dd], w as [| |l]; cbn [ab_entry] in En; try contradiction; cbn [land_of]; try reflexivity.
    destruct (Z.leb_spec 0 (1 + len (adws prew))); [reflexivity|lia].
  - unfold ab_isFullyIsotropic, ab_LAND. cbn [ab_v ab_nr ab_zero]. rewrite HL. cbn [bind]. f_equal.
    destruct e as [| |dd], w as [| |l]; cbn [ab_entry] in En; try contradiction; cbn [land_of]; try reflexivity.
    destruct (Z.eqb_spec (1 + len (adws prew)) 0); [lia|reflexivity].
Qed.
