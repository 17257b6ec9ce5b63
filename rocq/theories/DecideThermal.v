(** Lemmas for C50, continued: inelastic thermal scattering. *)
From Coq Require Import ZArith Bool List Lia.
From Coq Require Import ZifyBool ZifyNat.
From Verif Require Import PropLemmasBasic Truncated NuBlock AtomicBlocks ElectronBlocks ThermalBlocks Accepted Decide PropsDecide DecideMore.
Import ListNotations.
Open Scope Z_scope.

Section Itxe.
  Context (v : view) (nc nieb ne : Z).
  Hypothesis I : inside v.
  Hypothesis Hc : 0 <= nc < 2 ^ 31.
  Hypothesis Hb : 0 <= nieb < 2 ^ 31.
  Hypothesis He : 0 <= ne < 2 ^ 31.
  Let w : Z := 1 + nc.
  Definition cos_ok bm (d : cosData) : Prop := cos_NC d = nc /\ (exists e, cos_energy bm d = Ok e) /\ returns (cos_cosines bm d) nc.
  Lemma dc_ok c : vbeg v <= c -> c + w <= vend v -> exists d, dc_make nc (sub v c (c + w)) = Ok d /\ forall bm : build, cos_ok bm d.
  Proof.
    intros H1 H2. assert (In : inside (sub v c (c + w))) by (apply Decide.sub_inside; auto; lia).
    pose proof (C50_given_sizes (sub v c (c + w)) In) as (_ & _ & _ & _ & D & _). destruct (D nc ltac:(lia)) as [A _].
    assert (L : 1 + nc <= size (sub v c (c + w))) by (rewrite sub_size; lia).
    destruct (A L Debug) as (d & E & _). exists d. split; [exact E|]. intros b. destruct (A L b) as (d' & E' & X & Y). rewrite E in E'. apply Ok_inj in E'. subst d'.
    split; [|auto]. unfold dc_make in E. destruct (throw_if _ _); cbn [bind] in E; try discriminate. apply Ok_inj in E. subst d. reflexivity.
  Qed.
  Lemma out_ok n : forall c, vbeg v <= c -> c + Z.of_nat n * w <= vend v ->
    exists ds, it_out01 nc v n c = Ok (ds, c + Z.of_nat n * w) /\ length ds = n /\ forall d, In d ds -> forall bm : build, cos_ok bm d.
  Proof.
    pose proof I as [(F1 & F2 & F3) F4]. unfold max_words in F3.
    induction n as [|n IH]; intros c H1 H2.
    - exists []. cbn [it_out01]. split; [do 2 f_equal; lia|]. split; [reflexivity|intros d []].
    - cbn [it_out01]. cbv zeta. assert (0 <= Z.of_nat n * w) by nia. replace (adv (adv c nc) 1) with (c + w).
      2: { assert (Hw : 0 <= Z.of_nat n * w) by nia. rewrite (adv_small c nc), adv_small; unfold w in *; lia. }
      destruct (dc_ok c H1 ltac:(lia)) as (d & -> & D). cbn [bind]. destruct (IH (c + w) ltac:(lia) ltac:(lia)) as (ds & -> & L & A). cbn [bind fst snd].
      exists (d :: ds). split; [do 2 f_equal; lia|]. split; [cbn [length]; lia|]. intros d' [<- |H']; auto.
  Qed.
  Context (ifeng locb : Z).
  Let o : itxe := Itxe ifeng nc (Some nieb) ne locb v [].
  Lemma in_ok bm n : forall i c, vbeg v <= c -> c + Z.of_nat n * (nieb * w) <= vend v ->
    exists ls, it_in01 bm o n i c = Ok ls /\ length ls = n /\ forall l, In l ls -> len l = nieb /\ forall d, In d l -> forall bm, cos_ok bm d.
  Proof.
    induction n as [|n IH]; intros i c H1 H2.
    - exists []. split; [reflexivity|]. split; [reflexivity|intros l []].
    - cbn [it_in01]. unfold it_NIEB. cbn [it_nieb o bind]. unfold it_count. destruct (Z.ltb_spec nieb (2 ^ 32)) as [_|X]; [|lia]. cbn [bind it_nc it_v o].
      assert (0 <= nieb * w) by nia. assert (0 <= Z.of_nat n * (nieb * w)) by nia.
      destruct (out_ok (Z.to_nat nieb) c H1) as (ds & E & L & A). { rewrite Z2Nat.id by lia. lia. }
      rewrite E. cbn [bind fst snd]. rewrite Z2Nat.id by lia. destruct (IH (i + 1) (c + nieb * w) ltac:(lia) ltac:(lia)) as (ls & -> & Ll & B). cbn [bind].
      exists (ds :: ls). split; [reflexivity|]. split; [cbn [length]; lia|]. intros l [<- |H']; [|auto]. split; [unfold len; lia|exact A].
  Qed.
  Lemma it_decides : ifeng < 2 -> ne * nieb * (1 + nc) < 2 ^ 32 ->
    needs v (ne * nieb * (1 + nc)) (fun bm => it_make bm ifeng nieb nc ne locb v)
      (fun bm x => forall i j, 1 <= i <= ne -> 1 <= j <= nieb -> exists d, it_cosineData bm x i j = Ok d /\ cos_ok bm d).
  Proof.
    intros Hf B. assert (0 <= ne * nieb) by nia. assert (0 <= ne * nieb * (1 + nc)) by nia. pose proof I as [(F1 & F2 & F3) F4]. unfold max_words in F3.
    assert (Q : forall bm, it_make bm ifeng nieb nc ne locb v = (_ <- throw_if (size v <? ne * nieb * (1 + nc)) StdException ;; it_generateBlocks bm o)).
    { intros bm. unfold it_make. destruct (Z.ltb_spec ifeng 2) as [_|X]; [|lia]. rewrite (framed_s64 v (proj1 I)), u32_small by lia. reflexivity. }
    split; intros L.
    - intros bm. rewrite Q. destruct (Z.ltb_spec (size v) (ne * nieb * (1 + nc))) as [X|_]; [lia|]. cbn [throw_if bind]. unfold it_generateBlocks. cbn [it_ne it_ifeng it_v o it_nc it_nieb it_locb].
      unfold it_count. destruct (Z.ltb_spec ne (2 ^ 32)) as [_|X]; [|lia]. cbn [bind]. destruct (Z.ltb_spec ifeng 2) as [_|X]; [|lia]. fold o.
      destruct (in_ok bm (Z.to_nat ne) 1 (vbeg v) ltac:(lia)) as (ls & -> & Ln & A). { rewrite Z2Nat.id by lia. unfold size in L. unfold w. nia. }
      cbn [bind]. eexists. split; [reflexivity|]. intros i j Hi Hj. unfold it_cosineData. cbn [it_ne it_nieb it_data].
      unfold it_verifyIndex, it_NIEB. cbn [it_ne it_nieb bind]. unfold verifyIndex, throw_if. rewrite !u64_small by lia.
      destruct ((i <? 1) || (ne <? i)) eqn:X1; [lia|]. destruct ((j <? 1) || (nieb <? j)) eqn:X2; [lia|].
      replace (if debug bm then _ <- Ok tt ;; Ok tt else Ok tt) with (Ok tt) by (destruct (debug bm); reflexivity). cbn [bind].
      unfold it_at. destruct (Z.ltb_spec (i - 1) 0) as [X|_]; [lia|]. unfold nth_or_UB. destruct (nth_error ls (Z.to_nat (i - 1))) as [l|] eqn:N1; [|apply nth_error_None in N1; lia].
      cbn [bind]. destruct (A l (nth_error_In _ _ N1)) as [Ll D]. destruct (Z.ltb_spec (j - 1) 0) as [X|_]; [lia|].
      destruct (nth_error l (Z.to_nat (j - 1))) as [d|] eqn:N2; [|apply nth_error_None in N2; unfold len in Ll; lia]. exists d. split; [reflexivity|]. apply D. exact (nth_error_In _ _ N2).
    - rewrite Q. destruct (Z.ltb_spec (size v) (ne * nieb * (1 + nc))) as [_|X]; [|lia]. eexists. reflexivity.
  Qed.
End Itxe.

(** * IFENG = 2: locators and numbers of outgoing energies in front of the cosines *)
Section Continuous.
  Context (v : view) (nc ne locb : Z) (loc cnt : Z -> Z).
  Hypothesis I : inside v.
  Hypothesis Hc : 0 <= nc < 2 ^ 31.
  Hypothesis He : 1 <= ne < 2 ^ 30.
  Hypothesis Hb : 1 <= locb < 2 ^ 31.
  Hypothesis Hs : 2 * ne <= size v.
  Hypothesis Hl : forall i, 1 <= i <= ne -> states v i (loc i + locb - 2) /\ 1 <= loc i /\ loc i + locb <= 2 ^ 31.
  Hypothesis Hn : forall i, 1 <= i <= ne -> states v (ne + i) (cnt i) /\ 1 <= cnt i < 2 ^ 30.
  Hypothesis Hm : forall i, 1 <= i < ne -> loc i <= loc (i + 1).
  Let w : Z := 3 + nc.
  Let en (i : Z) : Z := if i <? ne then loc (i + 1) else size v + 1.
  Hypothesis Hr : forall i, 1 <= i <= ne -> loc i <= size v + 1 -> en i <= size v + 1 -> (cnt i - 1) * w <= en i - loc i.
  Context (ifeng nieb : Z).
  Hypothesis Hf : 2 <= ifeng.
  Let o (data : list (list cosData)) : itxe := Itxe ifeng nc None ne locb v data.
  Definition cosp_ok bm (d : cosData) : Prop := cos_NC d = nc /\ (exists e, cos_energy bm d = Ok e) /\ (exists p, cos_pdf bm (cos_v d) = Ok p)
    /\ (exists c, cos_cdf bm (cos_v d) = Ok c) /\ returns (cos_cosines bm d) nc.
  Lemma dq_ok c e : vbeg v <= c -> c + w <= e -> e <= vend v -> exists d, dq_make nc (sub v c e) = Ok d /\ forall bm : build, cosp_ok bm d.
  Proof.
    intros H1 H2 H3. assert (In : inside (sub v c e)) by (apply Decide.sub_inside; auto; unfold w in *; lia).
    pose proof (C50_given_sizes (sub v c e) In) as (_ & _ & _ & _ & _ & D). destruct (D nc ltac:(lia)) as [A _].
    assert (L : 3 + nc <= size (sub v c e)) by (rewrite sub_size; unfold w in *; lia).
    destruct (A L Debug) as (d & E & _). exists d. split; [exact E|]. intros b. destruct (A L b) as (d' & E' & X). rewrite E in E'. apply Ok_inj in E'. subst d'.
    split; [|exact X]. unfold dq_make in E. destruct (throw_if _ _); cbn [bind] in E; try discriminate. apply Ok_inj in E. subst d. reflexivity.
  Qed.
  Lemma dq_short c e : vbeg v <= c <= e -> e <= vend v -> e < c + w -> exists x, dq_make nc (sub v c e) = Throw x.
  Proof.
    intros H1 H2 H3. assert (In : inside (sub v c e)) by (apply Decide.sub_inside; auto; lia).
    pose proof (C50_given_sizes (sub v c e) In) as (_ & _ & _ & _ & _ & D). destruct (D nc ltac:(lia)) as [_ A]. apply A. rewrite sub_size. unfold w in *. lia.
  Qed.
  Lemma step_adv c : vbeg v <= c <= vend v -> adv (adv c nc) 3 = c + w.
  Proof. intros H. pose proof I as [(F1 & F2 & F3) F4]. unfold max_words in F3. rewrite (adv_small c nc), adv_small; unfold w; lia. Qed.
  Lemma out2_ok next n : next <= vend v -> forall c, vbeg v <= c -> c + Z.of_nat (S n) * w <= next ->
    exists ds, it_out2 nc v (S n) next c = Ok (ds, next) /\ length ds = S n /\ forall d, In d ds -> forall bm : build, cosp_ok bm d.
  Proof.
    intros Hx. induction n as [|n IH]; intros c H1 H2; cbn [it_out2]; cbv zeta.
    - destruct (dq_ok c next H1 ltac:(lia) Hx) as (d & -> & D). cbn [bind fst snd]. exists [d]. split; [reflexivity|]. split; [reflexivity|]. intros d' [<- | []]; exact D.
    - assert (0 <= Z.of_nat n * w) by (unfold w; nia). rewrite step_adv by (unfold w in *; lia).
      destruct (dq_ok c (c + w) H1 ltac:(lia) ltac:(unfold w in *; lia)) as (d & -> & D). cbn [bind].
      destruct (IH (c + w) ltac:(unfold w in *; lia) ltac:(lia)) as (ds & E & L & A). cbn [it_out2] in E. cbv zeta in E. rewrite E. cbn [bind fst snd].
      exists (d :: ds). split; [reflexivity|]. split; [cbn [length]; lia|]. intros d' [<- | H']; auto.
  Qed.
  Lemma out2_short next n : next <= vend v -> forall c, vbeg v <= c -> c + Z.of_nat n * w <= next -> next < c + Z.of_nat (S n) * w ->
    exists x, it_out2 nc v (S n) next c = Throw x.
  Proof.
    intros Hx. induction n as [|n IH]; intros c H1 H2 H3; cbn [it_out2]; cbv zeta.
    - destruct (dq_short c next ltac:(lia) Hx ltac:(lia)) as (x & ->). eexists. reflexivity.
    - assert (0 <= Z.of_nat n * w) by (unfold w; nia). rewrite step_adv by (unfold w in *; lia).
      destruct (dq_ok c (c + w) H1 ltac:(lia) ltac:(unfold w in *; lia)) as (d & -> & D). cbn [bind].
      destruct (IH (c + w) ltac:(unfold w in *; lia) ltac:(lia) ltac:(lia)) as (x & E). cbn [it_out2] in E. cbv zeta in E. rewrite E. eexists. reflexivity.
  Qed.
  Lemma relative_at bm l i : 1 <= i <= ne -> it_relative bm (o l) i = Ok (loc i).
  Proof.
    intros Hi. destruct (Hl i Hi) as (S & L1 & L2). assert (In := I). unfold it_relative, it_LOCC. cbn [it_v it_locb o].
    rewrite (read_int bm v i (vbeg v + i - 1) (loc i + locb - 2) I ltac:(lia) eq_refl (states_holds v i _ I S ltac:(lia)) ltac:(lia)). cbn [bind].
    unfold in_int. destruct ((- 2 ^ 31 <=? loc i + locb - 2 + 1) && (loc i + locb - 2 + 1 <? 2 ^ 31)) eqn:E; [|lia]. cbn [bind].
    rewrite u64_small by lia. f_equal. lia.
  Qed.
  Lemma relative_last bm l : exists z, it_relative bm (o l) (ne + 1) = Ok z.
  Proof.
    destruct (Hn 1 ltac:(lia)) as (S & L). unfold it_relative, it_LOCC. cbn [it_v it_locb o].
    rewrite (read_int bm v (ne + 1) (vbeg v + (ne + 1) - 1) (cnt 1) I ltac:(lia) eq_refl (states_holds v _ _ I S ltac:(lia)) ltac:(lia)). cbn [bind].
    unfold in_int. destruct ((- 2 ^ 31 <=? cnt 1 + 1) && (cnt 1 + 1 <? 2 ^ 31)) eqn:E; [|lia]. cbn [bind]. eexists. reflexivity.
  Qed.
  Lemma nieb_at bm l i : 1 <= i <= ne -> it_NIEB bm (o l) i = Ok (cnt i).
  Proof.
    intros Hi. destruct (Hn i Hi) as (S & L). unfold it_NIEB. cbn [it_nieb o]. unfold check, it_verifyIndex. cbn [it_ne it_v o].
    unfold verifyIndex, throw_if. rewrite u64_small by lia. destruct ((i <? 1) || (ne <? i)) eqn:X; [lia|].
    replace (if debug bm then Ok tt else Ok tt) with (Ok tt) by (destruct (debug bm); reflexivity). cbn [bind].
    exact (read_size bm v (ne + i) (vbeg v + (ne + i) - 1) (cnt i) I ltac:(lia) eq_refl (states_holds v _ _ I S ltac:(lia)) ltac:(lia)).
  Qed.
  Lemma up i j : 1 <= i -> i <= j -> j <= ne -> loc i <= loc j.
  Proof.
    intros H1 H2 H3. replace j with (i + Z.of_nat (Z.to_nat (j - i))) by lia. assert (B : i + Z.of_nat (Z.to_nat (j - i)) <= ne) by lia. revert B.
    induction (Z.to_nat (j - i)) as [|k IH]; intros B; [replace (i + Z.of_nat 0) with i by lia; lia|].
    etransitivity; [apply IH; lia|]. replace (i + Z.of_nat (S k)) with (i + Z.of_nat k + 1) by lia. apply Hm. lia.
  Qed.
  Definition rows_ok (m : nat) (i : Z) (ls : list (list cosData)) : Prop :=
    length ls = m /\ forall k l, nth_error ls k = Some l -> len l = cnt (i + Z.of_nat k) /\ forall d, In d l -> forall bm : build, cosp_ok bm d.
  Lemma in2_decides m : forall i, 1 <= i -> i + Z.of_nat m = ne + 1 -> (m <> O -> loc i <= size v + 1) ->
    ((forall j, i <= j <= ne -> cnt j * w <= en j - loc j) -> forall bm, exists ls, it_in2 bm (o []) m i (vbeg v + loc i - 1) = Ok ls /\ rows_ok m i ls)
    /\ (~ (forall j, i <= j <= ne -> cnt j * w <= en j - loc j) -> exists x, it_in2 Debug (o []) m i (vbeg v + loc i - 1) = Throw x).
  Proof.
    pose proof I as [(F1 & F2 & F3) F4]. unfold max_words in F3. assert (SV := size_bound v I).
    induction m as [|m IH]; intros i Hi1 Hi2 Hi3.
    { split; [|intros N; exfalso; apply N; intros j Hj; lia]. intros _ bm. exists []. split; [reflexivity|]. split; [reflexivity|]. intros [|k] l; discriminate. }
    specialize (Hi3 ltac:(discriminate)). assert (Hi : 1 <= i <= ne) by lia. destruct (Hl i Hi) as (_ & L1 & L2). destruct (Hn i Hi) as (_ & C1).
    assert (R : forall bm, it_in2 bm (o []) (S m) i (vbeg v + loc i - 1) =
      (next <- (match m with O => Ok (vend v) | _ => iter bm v (loc (i + 1)) end) ;; r <- it_out2 nc v (Z.to_nat (cnt i)) next (vbeg v + loc i - 1) ;;
       rs <- it_in2 bm (o []) m (i + 1) (snd r) ;; Ok (fst r :: rs))).
    { intros bm. cbn [it_in2]. rewrite (nieb_at bm [] i Hi). cbn [bind]. unfold it_count. destruct (Z.ltb_spec (cnt i) (2 ^ 32)) as [_|X]; [|lia].
      cbn [it_v it_nc o]. destruct m as [|m]; [replace (i + 1) with (ne + 1) by lia; destruct (relative_last bm []) as (z & ->)|rewrite (relative_at bm [] (i + 1)) by lia]; reflexivity. }
    assert (W0 : 3 <= w) by (unfold w; lia).
    destruct (Z.leb_spec (en i) (size v + 1)) as [En|En].
    2:{ (* the next locator is behind the end *)
      unfold en in En. destruct (Z.ltb_spec i ne) as [Li|Li]; [|lia]. split.
      - intros Q. exfalso. specialize (Q ne ltac:(lia)). unfold en in Q. rewrite Z.ltb_irrefl in Q. pose proof (up (i + 1) ne ltac:(lia) ltac:(lia) ltac:(lia)).
        destruct (Hn ne ltac:(lia)) as (_ & C2). nia.
      - intros _. rewrite R. destruct m as [|m]; [lia|]. destruct (Hl (i + 1) ltac:(lia)) as (_ & X1 & X2). rewrite (iter_out v I) by lia. eexists. reflexivity. }
    assert (Nx : forall bm, (match m with O => Ok (vend v) | _ => iter bm v (loc (i + 1)) end) = Ok (vbeg v + en i - 1)).
    { intros bm. unfold en in *. unfold size in En. destruct m as [|m].
      - destruct (Z.ltb_spec i ne) as [X|X]; [lia|]. f_equal. unfold size. lia.
      - destruct (Z.ltb_spec i ne) as [X|X]; [|lia]. destruct (Hl (i + 1) ltac:(lia)) as (_ & X1 & X2). rewrite (iter_in v I) by (unfold size; lia). reflexivity. }
    assert (Hr' := Hr i Hi Hi3 En). unfold size in En.
    assert (Cn : Z.to_nat (cnt i) = S (Z.to_nat (cnt i - 1))) by lia.
    assert (Tl : vbeg v + en i - 1 = vbeg v + loc (i + 1) - 1 \/ m = O).
    { unfold en. destruct (Z.ltb_spec i ne); [left; reflexivity|right; lia]. }
    destruct (IH (i + 1) ltac:(lia) ltac:(lia)) as [P1 P2]. { intros Nm. unfold en in En. destruct (Z.ltb_spec i ne) as [X|X]; [unfold size; lia|lia]. }
    assert (Same : forall bm, it_in2 bm (o []) m (i + 1) (vbeg v + en i - 1) = it_in2 bm (o []) m (i + 1) (vbeg v + loc (i + 1) - 1)).
    { intros bm. destruct Tl as [-> | ->]; reflexivity. }
    destruct (Z.leb_spec (cnt i * w) (en i - loc i)) as [Fit|Short].
    - destruct (out2_ok (vbeg v + en i - 1) (Z.to_nat (cnt i - 1)) ltac:(lia) (vbeg v + loc i - 1) ltac:(lia)) as (ds & E & Ld & Ad).
      { replace (Z.of_nat (S (Z.to_nat (cnt i - 1)))) with (cnt i) by lia. lia. }
      split.
      + intros Q bm. rewrite R, Nx. cbn [bind]. rewrite Cn, E. cbn [bind fst snd]. rewrite Same. destruct (P1 (fun j Hj => Q j ltac:(lia)) bm) as (ls & -> & Ll & Al). cbn [bind].
        exists (ds :: ls). split; [reflexivity|]. split; [cbn [length]; lia|]. intros [|k] l; cbn [nth_error]; intros K.
        * injection K as <-. split; [unfold len; rewrite Z.add_0_r; lia|exact Ad].
        * destruct (Al k l K) as [A1 A2]. split; [rewrite A1; f_equal; lia|exact A2].
      + intros N. rewrite R, Nx. cbn [bind]. rewrite Cn, E. cbn [bind fst snd]. rewrite Same. destruct P2 as (x & ->); [|eexists; reflexivity].
        intros Q. apply N. intros j Hj. destruct (Z.eq_dec j i) as [->|]; [exact Fit|apply Q; lia].
    - split; [intros Q; specialize (Q i ltac:(lia)); lia|]. intros _. rewrite R, Nx. cbn [bind]. rewrite Cn.
      destruct (out2_short (vbeg v + en i - 1) (Z.to_nat (cnt i - 1)) ltac:(lia) (vbeg v + loc i - 1) ltac:(lia)) as (x & ->).
      { replace (Z.of_nat (Z.to_nat (cnt i - 1))) with (cnt i - 1) by lia. lia. }
      { replace (Z.of_nat (S (Z.to_nat (cnt i - 1)))) with (cnt i) by lia. lia. }
      eexists. reflexivity.
  Qed.
  Lemma it2_decides : decides (forall i, 1 <= i <= ne -> cnt i * w <= en i - loc i) (fun bm => it_make bm ifeng nieb nc ne locb v)
    (fun bm x => forall i, 1 <= i <= ne -> it_NIEB bm x i = Ok (cnt i) /\ forall j, 1 <= j <= cnt i -> exists d, it_cosineData bm x i j = Ok d /\ cosp_ok bm d).
  Proof.
    assert (SV := size_bound v I). assert (W0 : 3 <= w) by (unfold w; lia).
    assert (Q : forall bm, it_make bm ifeng nieb nc ne locb v = (current <- iter bm v (loc 1) ;; ls <- it_in2 bm (o []) (Z.to_nat ne) 1 current ;; Ok (o ls))).
    { intros bm. unfold it_make. destruct (Z.ltb_spec ifeng 2) as [X|_]; [lia|]. cbn [bind]. unfold it_generateBlocks. cbn [it_ne it_ifeng it_v it_nc it_nieb it_locb].
      unfold it_count. destruct (Z.ltb_spec ne (2 ^ 32)) as [_|X]; [|lia]. cbn [bind]. destruct (Z.ltb_spec ifeng 2) as [X|_]; [lia|]. fold (o []).
      rewrite (relative_at bm [] 1) by lia. cbn [bind]. destruct (iter bm v (loc 1)) as [c| |]; cbn [bind]; try reflexivity. }
    destruct (Hl 1 ltac:(lia)) as (_ & L1 & L2).
    destruct (Z.leb_spec (loc 1) (size v + 1)) as [In1|Out].
    - destruct (in2_decides (Z.to_nat ne) 1 ltac:(lia) ltac:(lia) ltac:(intros _; exact In1)) as [P1 P2]. split.
      + intros A bm. rewrite Q, (iter_in v I) by lia. cbn [bind]. destruct (P1 A bm) as (ls & -> & Ll & Al). cbn [bind]. exists (o ls). split; [reflexivity|].
        intros i Hi. split; [apply nieb_at; exact Hi|]. intros j Hj. destruct (Hn i Hi) as (_ & C1).
        unfold it_cosineData. rewrite (nieb_at bm ls i Hi). cbn [bind it_data o]. unfold it_verifyIndex. cbn [it_ne o].
        unfold verifyIndex, throw_if. rewrite !u64_small by lia. destruct ((i <? 1) || (ne <? i)) eqn:X1; [lia|]. destruct ((j <? 1) || (cnt i <? j)) eqn:X2; [lia|].
        replace (if debug bm then _ <- Ok tt ;; Ok tt else Ok tt) with (Ok tt) by (destruct (debug bm); reflexivity). cbn [bind].
        unfold it_at. destruct (Z.ltb_spec (i - 1) 0) as [X|_]; [lia|]. unfold nth_or_UB. destruct (nth_error ls (Z.to_nat (i - 1))) as [l|] eqn:N1; [|apply nth_error_None in N1; lia].
        cbn [bind]. destruct (Al _ _ N1) as [Lr D]. replace (1 + Z.of_nat (Z.to_nat (i - 1))) with i in Lr by lia.
        destruct (Z.ltb_spec (j - 1) 0) as [X|_]; [lia|].
        destruct (nth_error l (Z.to_nat (j - 1))) as [d|] eqn:N2; [|apply nth_error_None in N2; unfold len in Lr; lia]. exists d. split; [reflexivity|]. apply D. exact (nth_error_In _ _ N2).
      + intros N. rewrite Q, (iter_in v I) by lia. cbn [bind]. destruct (P2 N) as (x & ->). eexists. reflexivity.
    - split.
      + intros A. exfalso. specialize (A ne ltac:(lia)). unfold en in A. rewrite Z.ltb_irrefl in A. pose proof (up 1 ne ltac:(lia) ltac:(lia) ltac:(lia)).
        destruct (Hn ne ltac:(lia)) as (_ & C2). nia.
      + intros _. rewrite Q, (iter_out v I) by lia. eexists. reflexivity.
  Qed.
End Continuous.
