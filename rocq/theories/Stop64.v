(** * Stop64: the binary64 part of C88: PSAR stays inside the prices, and when its stop falls back. *)
From Flocq Require Import Core PrimFloat.
From Coq Require Import Reals Lra Floats.
From Verif Require Import Lists Arith FloatArith FloatReal Order FloatOrder Api SpecCausal SpecStop Align FloatPct Sar Stop.
Local Open Scope R_scope.

(** ** a step of at most one half towards a number does not pass it *)
Definition M1000 : R := bpow radix2 1000.
Lemma bounded_val : forall x, bounded x <-> exists r, val x = Fin r /\ Rabs r <= M1000.
Proof.
  intros x. unfold bounded. change (PrimFloat.leb (- 0x1p1000)%float x) with (fleb (fopp huge) x). change (PrimFloat.leb x 0x1p1000%float) with (fleb x huge).
  rewrite !val_leb, val_opp, val_huge. cbn [xopp]. fold M1000. split.
  - intros [H1 H2]. apply xleb_xle in H1. apply xleb_xle in H2. destruct (val x); cbn [xle] in H1, H2; try easy. exists r. split; auto. apply Rabs_le. lra.
  - intros (r & -> & H). apply Rabs_le_inv in H. split; apply xleb_xle; cbn [xle]; lra.
Qed.
(** the step: a part 0 <= al <= 1/2 of the rounded distance, rounded, is at most the distance *)
Lemma part_le : forall a b al, repr a -> repr b -> a <= b -> 0 <= al <= 1 / 2 -> 0 <= rnd (al * rnd (b - a)) <= b - a.
Proof.
  intros a b al Ra Rb L H. assert (D : 0 <= rnd (b - a)) by (rewrite <- rnd_0; apply rnd_le; lra). split.
  - rewrite <- rnd_0. apply rnd_le. nra.
  - eapply Rle_trans; [|exact (half_le a b Ra Rb L)]. apply rnd_le. nra.
Qed.
Lemma rnd_in : forall a b x, repr a -> repr b -> a <= x <= b -> a <= rnd x <= b.
Proof. intros a b x Ra Rb [H1 H2]. rewrite <- (rnd_id a Ra) at 1. rewrite <- (rnd_id b Rb). split; now apply rnd_le. Qed.
Lemma M1000_20 : 4 * M1000 <= bpow radix2 1020.
Proof. unfold M1000. change 4 with (bpow radix2 2). rewrite <- bpow_plus. apply bpow_le. lia. Qed.
Lemma repr_M : repr M1000 /\ repr (2 * M1000) /\ 0 < M1000.
Proof.
  split; [apply repr_bpow; lia|]. split; [|apply bpow_gt_0]. unfold M1000. change 2 with (bpow radix2 1). rewrite <- bpow_plus. apply repr_bpow; lia.
Qed.
Lemma gap_val : forall x y a b, val x = Fin a -> val y = Fin b -> Rabs a <= M1000 -> Rabs b <= M1000 -> val (fsub x y) = Fin (rnd (a - b)).
Proof.
  intros x y a b Ex Ey Ba Bb. rewrite val_sub, Ex, Ey. cbn [xsub xadd xopp]. apply rx_small. pose proof M1000_20. pose proof repr_M.
  apply Rabs_le_inv in Ba. apply Rabs_le_inv in Bb. apply Rabs_le. lra.
Qed.
Definition towards (x y v : R) : Prop := (x <= y -> x <= v <= y) /\ (y <= x -> y <= v <= x).
Lemma move_up : forall (f x y : float) al a b, val f = Fin al -> 0 <= al <= 1 / 2 -> val x = Fin a -> val y = Fin b ->
  Rabs a <= M1000 -> Rabs b <= M1000 -> exists v, val (fadd x (fmul f (fsub y x))) = Fin v /\ towards a b v.
Proof.
  intros f x y al a b Ef Hal Ex Ey Ba Bb. destruct (repr_val _ _ Ex) as [Ra _]. destruct (repr_val _ _ Ey) as [Rb _].
  pose proof M1000_20 as M4. pose proof repr_M as (RM & R2M & PM). apply Rabs_le_inv in Ba. apply Rabs_le_inv in Bb.
  assert (D : - (2 * M1000) <= rnd (b - a) <= 2 * M1000).
  { rewrite <- (rnd_id (2 * M1000)) by auto. rewrite <- rnd_opp. split; apply rnd_le; lra. }
  assert (Q : - (2 * M1000) <= rnd (al * rnd (b - a)) <= 2 * M1000).
  { rewrite <- (rnd_id (2 * M1000)) by auto. rewrite <- rnd_opp. split; apply rnd_le; nra. }
  assert (E : val (fadd x (fmul f (fsub y x))) = Fin (rnd (a + rnd (al * rnd (b - a))))).
  { rewrite val_add, val_mul, Ef, (gap_val y x b a) by (auto; apply Rabs_le; lra). cbn [xmul].
    rewrite (rx_small (al * rnd (b - a))) by (apply Rabs_le; nra). rewrite Ex. cbn [xadd]. apply rx_small. apply Rabs_le. lra. }
  eexists. split; [exact E|]. split; intros L.
  - apply rnd_in; auto. pose proof (part_le a b al Ra Rb L Hal). lra.
  - apply rnd_in; auto. pose proof (part_le b a al Rb Ra L Hal) as P.
    replace (al * rnd (b - a)) with (- (al * rnd (a - b))) by (replace (b - a) with (- (a - b)) by ring; rewrite rnd_opp; ring).
    rewrite rnd_opp. lra.
Qed.
Lemma move_down : forall (f x y : float) al a b, val f = Fin al -> 0 <= al <= 1 / 2 -> val x = Fin a -> val y = Fin b ->
  Rabs a <= M1000 -> Rabs b <= M1000 -> exists v, val (fsub x (fmul f (fsub x y))) = Fin v /\ towards a b v.
Proof.
  intros f x y al a b Ef Hal Ex Ey Ba Bb. destruct (repr_val _ _ Ex) as [Ra _]. destruct (repr_val _ _ Ey) as [Rb _].
  pose proof M1000_20 as M4. pose proof repr_M as (RM & R2M & PM). apply Rabs_le_inv in Ba. apply Rabs_le_inv in Bb.
  assert (D : - (2 * M1000) <= rnd (a - b) <= 2 * M1000).
  { rewrite <- (rnd_id (2 * M1000)) by auto. rewrite <- rnd_opp. split; apply rnd_le; lra. }
  assert (Q : - (2 * M1000) <= rnd (al * rnd (a - b)) <= 2 * M1000).
  { rewrite <- (rnd_id (2 * M1000)) by auto. rewrite <- rnd_opp. split; apply rnd_le; nra. }
  assert (E : val (fsub x (fmul f (fsub x y))) = Fin (rnd (a - rnd (al * rnd (a - b))))).
  { rewrite val_sub, val_mul, Ef, (gap_val x y a b) by (auto; apply Rabs_le; lra). cbn [xmul].
    rewrite (rx_small (al * rnd (a - b))) by (apply Rabs_le; nra). rewrite Ex. cbn [xsub xadd xopp]. apply rx_small. apply Rabs_le. lra. }
  eexists. split; [exact E|]. split; intros L.
  - apply rnd_in; auto. pose proof (part_le a b al Ra Rb L Hal) as P.
    replace (al * rnd (a - b)) with (- (al * rnd (b - a))) by (replace (a - b) with (- (b - a)) by ring; rewrite rnd_opp; ring).
    rewrite rnd_opp. lra.
  - apply rnd_in; auto. pose proof (part_le b a al Rb Ra L Hal). lra.
Qed.

(** ** the trace in real numbers *)
Section Trace64.
Variables (step mx : float) (st m : R) (h l c : list float).
Hypothesis Hst : val step = Fin st.
Hypothesis Hmx : val mx = Fin m.
Hypothesis H0 : 0 <= st.
Hypothesis H1 : st <= m.
Hypothesis H2 : m <= 1 / 2.
Notation T := (t_at step mx h l c).

Definition inR (lo hi : R) (x : float) : Prop := exists r, val x = Fin r /\ lo <= r <= hi.
Lemma af_next : forall af x, val af = Fin x -> 0 <= x <= 1 / 2 -> exists y, val (fmin2 (fadd af step) mx) = Fin y /\ 0 <= y <= 1 / 2.
Proof.
  intros af x E Hx.
  assert (S : val (fadd af step) = Fin (rnd (x + st))).
  { rewrite val_add, E, Hst. cbn [xadd]. apply rx_small. apply Rabs_le. assert (1 <= bpow radix2 1020) by (change 1 with (bpow radix2 0); apply bpow_le; lia). lra. }
  assert (P : 0 <= rnd (x + st)) by (rewrite <- rnd_0; apply rnd_le; lra).
  unfold fmin2. rewrite val_ltb, S, Hmx. cbn [xltb]. destruct (Rlt_dec m (rnd (x + st))) as [L|L].
  - exists m. split; auto. lra.
  - exists (rnd (x + st)). split; [exact S|]. lra.
Qed.

(** all loop variables stay in any interval that holds the prices so far *)
Lemma trace_in : forall lo hi, Rabs lo <= M1000 -> Rabs hi <= M1000 -> forall i,
  (forall j, (j <= i)%nat -> inR lo hi (nth j h fnan) /\ inR lo hi (nth j l fnan) /\ inR lo hi (nth j c fnan)) ->
  inR lo hi (t_val (T i)) /\ inR lo hi (t_uth (T i)) /\ inR lo hi (t_dtl (T i)) /\ inR 0 (1 / 2) (t_af (T i)).
Proof.
  intros lo hi Blo Bhi i. apply Rabs_le_inv in Blo. apply Rabs_le_inv in Bhi.
  assert (A0 : inR 0 (1 / 2) step) by (exists st; split; auto; lra).
  induction i as [|[|i] IH]; intros H.
  - destruct (H 0%nat ltac:(lia)) as (P1 & P2 & P3). cbn [t_at t_val t_uth t_dtl t_af]. auto.
  - destruct (H 0%nat ltac:(lia)) as (P1 & P2 & P3). destruct (H 1%nat ltac:(lia)) as (_ & _ & P4). cbn [t_at t_val t_uth t_dtl t_af]. auto.
  - specialize (IH ltac:(intros; apply H; lia)). change (T (S (S i))) with (t_next step mx h l (T (S i)) (S (S i))). set (k := S (S i)) in *.
    generalize dependent (T (S i)). intros s (IHv & IHu & IHd & IHa).
    destruct (H k ltac:(lia)) as (Hh & Hl & _). destruct (H (k - 1)%nat ltac:(lia)) as (Hh1 & Hl1 & _). destruct (H (k - 2)%nat ltac:(lia)) as (Hh2 & Hl2 & _).
    destruct IHv as (a & Ea & Ba). destruct IHa as (al & Eal & Bal). unfold t_next. destruct (t_up s).
    + pose proof IHu as (b & Eb & Bb).
      destruct (move_up (t_af s) (t_val s) (t_uth s) al a b Eal Bal Ea Eb) as (v & Ev & Tv1 & Tv2); try (apply Rabs_le; lra).
      assert (Iv : inR lo hi (fadd (t_val s) (fmul (t_af s) (fsub (t_uth s) (t_val s))))).
      { exists v. split; auto. destruct (Rle_dec a b); [specialize (Tv1 r)|specialize (Tv2 ltac:(lra))]; lra. }
      destruct (fltb (nth k l fnan) _); cbn [t_val t_uth t_dtl t_af]; [auto|].
      refine (conj _ (conj _ (conj _ _))); auto.
      * destruct (fltb (nth (k - 2) l fnan) _); auto. destruct (fltb (nth (k - 1) l fnan) _); auto.
      * destruct (fltb (t_uth s) _); auto.
      * destruct (fltb (t_uth s) _); [exact (af_next _ _ Eal Bal)|exists al; auto].
    + pose proof IHd as (b & Eb & Bb).
      destruct (move_down (t_af s) (t_val s) (t_dtl s) al a b Eal Bal Ea Eb) as (v & Ev & Tv1 & Tv2); try (apply Rabs_le; lra).
      assert (Iv : inR lo hi (fsub (t_val s) (fmul (t_af s) (fsub (t_val s) (t_dtl s))))).
      { exists v. split; auto. destruct (Rle_dec a b); [specialize (Tv1 r)|specialize (Tv2 ltac:(lra))]; lra. }
      destruct (fltb _ (nth k h fnan)); cbn [t_val t_uth t_dtl t_af]; [auto|].
      refine (conj _ (conj _ (conj _ _))); auto.
      * destruct (fltb _ (nth (k - 2) h fnan)); auto. destruct (fltb _ (nth (k - 1) h fnan)); auto.
      * destruct (fltb (nth k l fnan) (t_dtl s)); auto.
      * destruct (fltb (nth k l fnan) (t_dtl s)); [exact (af_next _ _ Eal Bal)|exists al; auto].
Qed.

Lemma prices_in : forall i, (forall j, (j <= i)%nat -> bounded (nth j h fnan) /\ bounded (nth j l fnan) /\ bounded (nth j c fnan)) ->
  inR (- M1000) M1000 (t_val (T i)) /\ inR (- M1000) M1000 (t_uth (T i)) /\ inR (- M1000) M1000 (t_dtl (T i)) /\ inR 0 (1 / 2) (t_af (T i)).
Proof.
  intros i H. pose proof repr_M as (_ & _ & PM).
  assert (B : forall x, bounded x -> inR (- M1000) M1000 x) by (intros x Bx; apply bounded_val in Bx; destruct Bx as (r & E & Br); exists r; split; auto; now apply Rabs_le_inv).
  apply trace_in; [rewrite Rabs_Ropp| |]; try (rewrite Rabs_pos_eq; lra). intros j Hj. destruct (H j Hj) as (B1 & B2 & B3). auto.
Qed.
(** the extreme price of the trend is not inside the last bar *)
Lemma trace_extreme : forall i, (2 <= i)%nat ->
  if t_up (T i) then fltb (t_uth (T i)) (nth i h fnan) = false else fltb (nth i l fnan) (t_dtl (T i)) = false.
Proof.
  intros i Hi. rewrite (t_at_S step mx h l c i Hi). set (s := T (i - 1)%nat). unfold t_next. destruct (t_up s).
  - destruct (fltb (nth i l fnan) _); cbn [t_up t_uth t_dtl]; [apply lt_irrefl|]. destruct (fltb (t_uth s) (nth i h fnan)) eqn:E; [apply lt_irrefl|exact E].
  - destruct (fltb _ (nth i h fnan)); cbn [t_up t_uth t_dtl]; [apply lt_irrefl|]. destruct (fltb (nth i l fnan) (t_dtl s)) eqn:E; [apply lt_irrefl|exact E].
Qed.
(** in a continuing trend the stop moves back only onto one of the two bars before *)
Lemma trace_ratchet : forall i, (3 <= i)%nat ->
  (forall j, (j <= i)%nat -> bounded (nth j h fnan) /\ bounded (nth j l fnan) /\ bounded (nth j c fnan)) ->
  fleb (nth (i - 1) l fnan) (nth (i - 1) h fnan) = true ->
  t_up (T i) = t_up (T (i - 1)%nat) ->
  let p := t_val (T i) in let q := t_val (T (i - 1)%nat) in
  if t_up (T i) then fltb p q = true -> feqb p (nth (i - 1) l fnan) = true \/ feqb p (nth (i - 2) l fnan) = true
  else fltb q p = true -> feqb p (nth (i - 1) h fnan) = true \/ feqb p (nth (i - 2) h fnan) = true.
Proof.
  intros i Hi H LH U p q. pose proof (trace_extreme (i - 1)%nat ltac:(lia)) as X.
  destruct (prices_in (i - 1)) as ((a & Ea & Ba) & (u & Eu & Bu) & (d & Ed & Bd) & (al & Eal & Bal)); [intros; apply H; lia|].
  destruct (H (i - 1)%nat ltac:(lia)) as (Bh1 & Bl1 & _). destruct (H (i - 2)%nat ltac:(lia)) as (Bh2 & Bl2 & _).
  apply bounded_val in Bh1, Bl1, Bh2, Bl2. destruct Bh1 as (x1 & Eh1 & _), Bl1 as (y1 & El1 & _), Bh2 as (x2 & Eh2 & _), Bl2 as (y2 & El2 & _).
  rewrite val_leb, El1, Eh1 in LH. apply xleb_xle in LH. cbn [xle] in LH.
  assert (Q : forall z r, val z = Fin r -> feqb z z = true) by (intros z r E; rewrite val_eqb, E; cbn [xeqb]; destruct Req_EM_T; lra).
  subst p q. rewrite (t_at_S step mx h l c i ltac:(lia)) in *. set (s := T (i - 1)%nat) in *. unfold t_next in *.
  destruct (t_up s) eqn:Es.
  - destruct (move_up (t_af s) (t_val s) (t_uth s) al a u Eal Bal Ea Eu) as (w & Ew & W1 & W2); try (apply Rabs_le; lra).
    set (mv := fadd (t_val s) _) in *. destruct (fltb (nth i l fnan) mv); cbn [t_up t_val] in *; [discriminate|].
    rewrite val_ltb, Eu, Eh1 in X. cbn [xltb] in X. destruct (Rlt_dec u x1); [discriminate|].
    destruct (fltb (nth (i - 2) l fnan) mv); [eauto|]. destruct (fltb (nth (i - 1) l fnan) mv) eqn:E1; [eauto|].
    rewrite val_ltb, El1, Ew in E1. cbn [xltb] in E1. destruct (Rlt_dec y1 w); [discriminate|].
    rewrite val_ltb, Ew, Ea. cbn [xltb]. destruct (Rlt_dec w a); [|discriminate]. intros _. left.
    rewrite val_eqb, Ew, El1. cbn [xeqb]. destruct Req_EM_T; auto. destruct (Rle_dec a u); [specialize (W1 r0)|specialize (W2 ltac:(lra))]; lra.
  - destruct (move_down (t_af s) (t_val s) (t_dtl s) al a d Eal Bal Ea Ed) as (w & Ew & W1 & W2); try (apply Rabs_le; lra).
    set (mv := fsub (t_val s) _) in *. destruct (fltb mv (nth i h fnan)); cbn [t_up t_val] in *; [discriminate|].
    rewrite val_ltb, Ed, El1 in X. cbn [xltb] in X. destruct (Rlt_dec y1 d); [discriminate|].
    destruct (fltb mv (nth (i - 2) h fnan)); [eauto|]. destruct (fltb mv (nth (i - 1) h fnan)) eqn:E1; [eauto|].
    rewrite val_ltb, Eh1, Ew in E1. cbn [xltb] in E1. destruct (Rlt_dec w x1); [discriminate|].
    rewrite val_ltb, Ew, Ea. cbn [xltb]. destruct (Rlt_dec a w); [|discriminate]. intros _. left.
    rewrite val_eqb, Ew, Eh1. cbn [xeqb]. destruct Req_EM_T; auto. destruct (Rle_dec a d); [specialize (W1 r0)|specialize (W2 ltac:(lra))]; lra.
Qed.
End Trace64.

(** ** the public series *)
Lemma steps_val : forall step mx, steps_ok step mx -> exists st m, val step = Fin st /\ val mx = Fin m /\ 0 <= st /\ st <= m /\ m <= 1 / 2.
Proof.
  intros step mx (S1 & S2 & S3). change (fleb (fofZ 0) step = true) in S1. change (fleb step mx = true) in S2. change (fleb mx (fdiv (fofZ 1) (fofZ 2)) = true) in S3.
  rewrite val_leb in S1, S2, S3. rewrite (val_small 0) in S1 by lia. rewrite val_div in S3 by (rewrite val_small by lia; intros E; injection E; lra).
  rewrite !val_small in S3 by lia. cbn [xdiv] in S3. destruct Req_EM_T; [lra|].
  assert (E : rx (Fin (1 / 2)) = Fin (1 / 2)).
  { replace (1 / 2) with (bpow radix2 (-1)) by (cbn; lra). rewrite rx_small by (rewrite Rabs_pos_eq by apply bpow_ge_0; apply bpow_le; lia).
    f_equal. apply rnd_id, repr_bpow; lia. }
  rewrite E in S3. apply xleb_xle in S1. apply xleb_xle in S2. apply xleb_xle in S3.
  destruct (val step) as [ | | |st], (val mx) as [ | | |m]; cbn in S1, S2, S3; try easy. exists st, m. repeat split; auto.
Qed.
Lemma nth_bar : forall (f : bar float -> float) rows j, (j < length rows)%nat -> nth j (map f rows) fnan = f (nth j rows (mkbar 0%Z fnan fnan fnan fnan)).
Proof. intros f rows j Hj. rewrite (nth_indep _ fnan (f (mkbar 0%Z fnan fnan fnan fnan))) by (now rewrite map_length). apply map_nth. Qed.
Lemma rows_bounded : forall rows j, Forall row_bounded rows -> (j < length rows)%nat ->
  bounded (nth j (map b_high rows) fnan) /\ bounded (nth j (map b_low rows) fnan) /\ bounded (nth j (map b_close rows) fnan).
Proof. intros rows j H Hj. rewrite !nth_bar by auto. rewrite Forall_forall in H. destruct (H _ (nth_In _ (mkbar 0%Z fnan fnan fnan fnan) Hj)) as (B1 & B2 & B3 & _). auto. Qed.

Lemma psar_inside64 : forall b step mx rows out, b = false \/ default_index rows -> steps_ok step mx ->
  compute (Psar b step mx) false rows = Ok out -> forall i lo hi, (i < length rows)%nat -> bounded lo -> bounded hi ->
  (forall j, (j <= i)%nat -> row_in lo hi rows j) ->
  PrimFloat.leb lo (nth i out nan) = true /\ PrimFloat.leb (nth i out nan) hi = true.
Proof.
  intros b step mx rows out Hb HS Ho i lo hi Hi Blo Bhi H. destruct (steps_val _ _ HS) as (st & m & Es & Em & P0 & P1 & P2).
  apply bounded_val in Blo, Bhi. destruct Blo as (rl & El & Bl), Bhi as (rh & Eh & Bh).
  destruct (psar_positional float FloatA b step mx false rows Hb) as (E1 & _). rewrite E1 in Ho. cbn [compute] in Ho. unfold psar in Ho.
  destruct (psar_run _ _ _ _ _ _) as [s|] eqn:Er; [|discriminate]. cbn [bind check_fillna] in Ho. injection Ho as <-.
  apply psar_trace in Er; [|now rewrite !map_length]. destruct Er as (_ & _ & _ & R). rewrite map_length in R. destruct (R i Hi) as (R1 & _).
  change nan with (@fnan float FloatA). rewrite R1.
  assert (IN : forall x, PrimFloat.leb lo x = true /\ PrimFloat.leb x hi = true <-> inR rl rh x).
  { intros x. change (PrimFloat.leb lo x) with (fleb lo x). change (PrimFloat.leb x hi) with (fleb x hi). rewrite !val_leb, El, Eh. unfold inR. split.
    - intros [L1 L2]. apply xleb_xle in L1. apply xleb_xle in L2. destruct (val x); cbn [xle] in L1, L2; try easy. eauto.
    - intros (r & -> & L1 & L2). split; apply xleb_xle; auto. }
  rewrite IN. apply (trace_in step mx st m _ _ _ Es Em P0 P1 P2 rl rh Bl Bh i).
  intros j Hj. rewrite <- !IN. exact (H j Hj).
Qed.
Lemma psar_ratchet64 : forall b step mx rows up dn, b = false \/ default_index rows -> steps_ok step mx -> Forall row_bounded rows ->
  compute (PsarUp b step mx) false rows = Ok up -> compute (PsarDown b step mx) false rows = Ok dn ->
  forall i, (i < length rows)%nat ->
    (stop_on up (i - 1) -> stop_on up i -> PrimFloat.ltb (nth i up nan) (nth (i - 1) up nan) = true ->
       PrimFloat.eqb (nth i up nan) (nth (i - 1) (map b_low rows) nan) = true \/ PrimFloat.eqb (nth i up nan) (nth (i - 2) (map b_low rows) nan) = true) /\
    (stop_on dn (i - 1) -> stop_on dn i -> PrimFloat.ltb (nth (i - 1) dn nan) (nth i dn nan) = true ->
       PrimFloat.eqb (nth i dn nan) (nth (i - 1) (map b_high rows) nan) = true \/ PrimFloat.eqb (nth i dn nan) (nth (i - 2) (map b_high rows) nan) = true).
Proof.
  intros b step mx rows up dn Hb HS HB Hu Hd i Hi. destruct (steps_val _ _ HS) as (st & m & Es & Em & P0 & P1 & P2).
  pose proof (stops_rows b step mx rows up dn Hb Hu Hd) as R. cbv zeta in R. destruct (R i Hi) as [Ru Rd]. destruct (R (i - 1)%nat ltac:(lia)) as [Ru' Rd'].
  change nan with (@fnan float FloatA). unfold stop_on.
  assert (LH : (3 <= i)%nat -> fleb (nth (i - 1) (map b_low rows) fnan) (nth (i - 1) (map b_high rows) fnan) = true).
  { intros G. rewrite !nth_bar by lia. rewrite Forall_forall in HB. apply HB, nth_In. lia. }
  assert (Q : (3 <= i)%nat -> t_up (t_at step mx (map b_high rows) (map b_low rows) (map b_close rows) i) = t_up (t_at step mx (map b_high rows) (map b_low rows) (map b_close rows) (i - 1)) -> _)
    by (intros Q1 Q2; exact (trace_ratchet step mx st m (map b_high rows) (map b_low rows) (map b_close rows) Es Em P0 P1 P2 i Q1 ltac:(intros j Hj; apply rows_bounded; [auto|lia]) (LH Q1) Q2)).
  cbv zeta in Q. split; intros A1 A2; pose proof A1 as B1; pose proof A2 as B2.
  - rewrite Ru in B2. rewrite Ru' in B1. apply up_at in B1, B2. destruct B1 as [G1 U1], B2 as [G2 U2]. specialize (Q ltac:(lia) ltac:(congruence)).
    rewrite Ru, Ru', U1, U2 in *. destruct (Nat.ltb_spec i 2); [lia|]. destruct (Nat.ltb_spec (i - 1) 2); [lia|]. exact Q.
  - rewrite Rd in B2. rewrite Rd' in B1. apply dn_at in B1, B2. destruct B1 as [G1 U1], B2 as [G2 U2]. specialize (Q ltac:(lia) ltac:(congruence)).
    rewrite Rd, Rd', U1, U2 in *. destruct (Nat.ltb_spec i 2); [lia|]. destruct (Nat.ltb_spec (i - 1) 2); [lia|]. exact Q.
Qed.
