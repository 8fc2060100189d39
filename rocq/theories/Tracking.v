(** * Tracking: EMA and MACD in binary64 against the real-number formulas. *)
From Flocq Require Import Core PrimFloat.
From Coq Require Import Reals Lra Floats.
From Verif Require Import Lists Arith FloatArith FloatReal Order FloatOrder Api FloatPct EmaError FloatEma FloatTrack SpecNum Averages SpecTracking.
Local Open Scope R_scope.
#[local] Arguments eta : simpl never.
#[local] Arguments u : simpl never.

Lemma near_within : forall e x y, Forall2 (near e) x y -> Forall2 (within e) x y.
Proof.
  intros e x y. induction 1 as [|a b x y H]; constructor; auto. destruct b; cbn in *; auto.
  change (fisnan a = true). rewrite val_nan, H. reflexivity.
Qed.
Lemma closes_cons : forall b rows c M, closes (b :: rows) c M -> (val (b_close b) = Fin (c 0%nat) /\ Rabs (c 0%nat) <= M) /\ closes rows (fun i => c (S i)) M.
Proof.
  intros b rows c M H. split; [exact (H 0%nat b eq_refl)|]. intros i b' E. exact (H (S i) b' E).
Qed.
Lemma closes_near : forall rows c M, closes rows c M -> Forall2 (near 0) (map b_close rows) (map b_close (frame (length rows) c c c c)) /\
  Forall (bd M) (map b_close (frame (length rows) c c c c)).
Proof.
  intros rows c M H. unfold frame, tab. rewrite !map_map. cbn [b_close].
  assert (G : forall k, closes rows (fun i => c (k + i)%nat) M -> Forall2 (near 0) (map b_close rows) (map (fun i => Fin (c i)) (seq k (length rows))) /\
    Forall (bd M) (map (fun i => Fin (c i)) (seq k (length rows)))).
  { clear H. induction rows as [|b rows IH]; intros k H; [split; constructor|]. apply closes_cons in H as [(V & B) H]. rewrite Nat.add_0_r in V, B.
    destruct (IH (S k)) as [I1 I2]; [intros i b' E; specialize (H i b' E); cbn beta in H; replace (S k + i)%nat with (k + S i)%nat by lia; exact H|].
    cbn [map length seq]. split; constructor; auto.
    - exists (c k). split; auto. replace (c k - c k) with 0 by ring. rewrite Rabs_R0. lra.
    - now exists (c k). }
  now apply (G 0%nat).
Qed.
Lemma pow990 : IZR (2 ^ 990) = bpow radix2 990. Proof. reflexivity. Qed.
Lemma pow900 : / IZR (2 ^ 900) = bpow radix2 (-900). Proof. reflexivity. Qed.
Lemma big_bounds : forall M, ordinary M -> 0 < M /\ bpow radix2 (-900) <= M /\ 8 * M <= bpow radix2 1000 /\ 8 * M <= bpow radix2 1020 /\ eta <= u * M / 1000.
Proof.
  intros M [A B]. rewrite pow900 in A. rewrite pow990 in B. pose proof (bpow_gt_0 radix2 (-900)) as P.
  assert (M8 : 8 * M <= bpow radix2 1000).
  { apply Rle_trans with (bpow radix2 993); [|apply bpow_le; lia]. change 993%Z with (3 + 990)%Z. rewrite bpow_plus. change (bpow radix2 3) with 8. lra. }
  assert (Le : bpow radix2 1000 <= bpow radix2 1020) by (apply bpow_le; lia).
  repeat split; try lra. apply etaM; lra.
Qed.
Lemma ebound_part : forall w M, ebound w M = part (IZR w + 1) M.
Proof. intros. unfold ebound, part. change (IZR (2 ^ 50)) with 1125899906842624. lra. Qed.
Lemma ebound_small : forall w M, (1 <= w)%Z -> (100 * w <= 2 ^ 53)%Z -> 0 < M -> 0 < ebound w M <= M / 10.
Proof.
  intros w M W1 W2 P. destruct (wR w W1 W2) as [A B]. unfold ebound. split; [nra|]. nra.
Qed.

Section Rows.
Variables (rows : list (bar float)) (c : nat -> R) (M : R) (b : bool).
Hypothesis Hc : closes rows c M.
Hypothesis HM : ordinary M.
Let x := map b_close rows.
Let y := map b_close (frame (length rows) c c c c).
Lemma ema_near : forall w, (1 <= w)%Z -> (100 * w <= 2 ^ 53)%Z ->
  exists x' y', ema_ x w b = Ok x' /\ ema_ y w b = Ok y' /\ Forall2 (near (ebound w M)) x' y' /\ late M y'.
Proof.
  intros w W1 W2. destruct (closes_near _ _ _ Hc) as [N L]. destruct (big_bounds M HM) as (P1 & P2 & P3 & P4 & _).
  destruct (near_ema 0 M w b x y W1 W2) as (x' & y' & E1 & E2 & E3 & E4); auto; try lra; [now apply late_fin|].
  exists x', y'. repeat split; auto. eapply near_mono2; [|exact E3]. rewrite !Rplus_0_r. apply Rle_refl.
Qed.
Lemma macd_near : forall s f g, (1 <= s)%Z -> (1 <= f)%Z -> (1 <= g)%Z -> (100 * s <= 2 ^ 53)%Z -> (100 * f <= 2 ^ 53)%Z -> (100 * g <= 2 ^ 53)%Z ->
  exists x1 x2 x3 y1 y2 y3, macd_run x s f g b = Ok (x1, x2, x3) /\ macd_run y s f g b = Ok (y1, y2, y3) /\
    Forall2 (near (part (IZR f + IZR s + 3) M)) x1 y1 /\ Forall2 (near (part (IZR f + IZR s + 3 * IZR g + 6) M)) x2 y2 /\
    Forall2 (near (part (2 * (IZR f + IZR s) + 3 * IZR g + 10) M)) x3 y3.
Proof.
  intros s f g S1 F1 G1 S2 F2 G2. destruct (big_bounds M HM) as (P1 & P2 & P3 & P4 & P5).
  destruct (ema_near f F1 F2) as (xf & yf & Ef & Ef' & Nf & Lf). destruct (ema_near s S1 S2) as (xs & ys & Es & Es' & Ns & Ls).
  destruct (ebound_small f M F1 F2 P1) as [Bf1 Bf2]. destruct (ebound_small s M S1 S2 P1) as [Bs1 Bs2].
  destruct (wR f F1 F2) as [_ Wf]. destruct (wR s S1 S2) as [_ Ws]. destruct (wR g G1 G2) as [_ Wg].
  assert (F1' : 1 <= IZR f) by now apply IZR_le. assert (S1' : 1 <= IZR s) by now apply IZR_le. assert (G1' : 1 <= IZR g) by now apply IZR_le.
  set (L := part (IZR f + IZR s + 3) M).
  assert (UP : 0 < u) by (unfold u; lra). assert (UMP : 0 < u * M) by nra. assert (UM : 8 * (u * M) = part 1 M) by (unfold u, part; change (IZR (2 ^ 50)) with 1125899906842624; lra).
  assert (Uadd : forall p q, part (p + q) M = part p M + part q M) by (intros; unfold part; ring).
  assert (EL : L = ebound f M + ebound s M + part 1 M) by (rewrite !ebound_part, <- !Uadd; unfold L; f_equal; ring).
  assert (L3 : 0 < L <= M * 3 / 10) by (rewrite EL, <- UM; unfold u; lra).
  assert (N1 : Forall2 (near L) (ssub xf xs) (ssub yf ys)).
  { eapply near_mono2; [|apply (near_sub _ _ M M _ _ Nf Lf _ _ Ns Ls); lra]. rewrite EL, <- UM.
    assert (u * (M + M + ebound f M + ebound s M) <= u * (3 * M)) by (apply Rmult_le_compat_l; lra). lra. }
  pose proof (late_sub _ _ _ Lf _ Ls) as L1.
  destruct (near_ema L (M + M) g b _ _ G1 G2 ltac:(lra) ltac:(lra) N1 L1) as (xg & yg & Eg & Eg' & Ng & Lg).
  set (G := part (IZR f + IZR s + 3 * IZR g + 6) M).
  assert (EG : G = L + part (3 * (IZR g + 1)) M) by (unfold G, L; rewrite <- Uadd; f_equal; ring).
  assert (G3 : ebound g (M + M + L) + L <= G).
  { rewrite EG. unfold ebound, part. change (IZR (2 ^ 50)) with 1125899906842624. nra. }
  assert (G4 : 0 < G <= M).
  { rewrite EG. unfold part at 1. unfold part at 1. change (IZR (2 ^ 50)) with 1125899906842624. split; [nra|].
    assert (3 * (IZR g + 1) * (M / 1125899906842624) <= M / 2) by nra. lra. }
  assert (N2 : Forall2 (near G) xg yg) by (eapply near_mono2; [exact G3|exact Ng]).
  exists (ssub xf xs), xg, (ssub (ssub xf xs) xg), (ssub yf ys), yg, (ssub (ssub yf ys) yg).
  split; [unfold macd_run; rewrite Ef; cbn [bind]; rewrite Es; cbn [bind]; rewrite Eg; reflexivity|].
  split; [unfold macd_run; rewrite Ef'; cbn [bind]; rewrite Es'; cbn [bind]; rewrite Eg'; reflexivity|].
  split; [exact N1|]. split; [exact N2|].
  eapply near_mono2; [|apply (near_sub _ _ _ _ _ _ N1 L1 _ _ N2 Lg); lra].
  replace (2 * (IZR f + IZR s) + 3 * IZR g + 10) with ((IZR f + IZR s + 3) + (IZR f + IZR s + 3 * IZR g + 6) + 1) by ring.
  rewrite (Uadd (_ + _) 1), (Uadd (IZR f + IZR s + 3)). fold L. fold G. rewrite <- UM.
  assert (u * (M + M + (M + M) + L + G) <= u * (6 * M)) by (apply Rmult_le_compat_l; lra). lra.
Qed.
End Rows.

Lemma part_pos : forall k M, 0 < M -> 0 <= k -> 0 <= part k M.
Proof. intros. unfold part. change (IZR (2 ^ 50)) with 1125899906842624. nra. Qed.
Theorem ema_tracks : forall fillna w rows c M, (1 <= w)%nat -> (100 * Z.of_nat w <= 2 ^ 53)%Z -> closes rows c M -> ordinary M ->
  exists out, compute (Ema (Z.of_nat w)) fillna rows = Ok out /\
    Forall2 (within (part (INR w + 1) M)) out (tab (length rows) (from (warm fillna w) (ema w c 0))).
Proof.
  intros fillna w rows c M W1 W2 Hc HM. destruct (ema_near rows c M fillna Hc HM (Z.of_nat w)) as (x & y & E1 & E2 & N & _); try lia.
  exists x. split; [exact E1|]. pose proof (ema_formula fillna w (length rows) c c c c W1) as E. cbn [compute] in E. unfold ema_indicator in E.
  rewrite E2 in E. injection E as <-. rewrite INR_IZR_INZ, <- ebound_part. now apply near_within.
Qed.
Theorem macd_tracks : forall fillna s f g rows c M, (1 <= s)%nat -> (1 <= f)%nat -> (1 <= g)%nat ->
  (100 * Z.of_nat s <= 2 ^ 53)%Z -> (100 * Z.of_nat f <= 2 ^ 53)%Z -> (100 * Z.of_nat g <= 2 ^ 53)%Z -> closes rows c M -> ordinary M ->
  let k := warm fillna (Nat.max f s) in
  let line := fun i => ema f c 0 i - ema s c 0 i in
  exists m sg d, compute (Macd (Z.of_nat s) (Z.of_nat f) (Z.of_nat g)) fillna rows = Ok m /\
    compute (MacdSignal (Z.of_nat s) (Z.of_nat f) (Z.of_nat g)) fillna rows = Ok sg /\
    compute (MacdDiff (Z.of_nat s) (Z.of_nat f) (Z.of_nat g)) fillna rows = Ok d /\
    Forall2 (within (part (INR f + INR s + 3) M)) m (tab (length rows) (gaps fillna 0 k line)) /\
    Forall2 (within (part (INR f + INR s + 3 * INR g + 6) M)) sg (tab (length rows) (gaps fillna 0 (k + warm fillna g) (ema g line k))) /\
    Forall2 (within (part (2 * (INR f + INR s) + 3 * INR g + 10) M)) d (tab (length rows) (gaps fillna 0 (k + warm fillna g) (fun i => line i - ema g line k i))).
Proof.
  intros fillna s f g rows c M S1 F1 G1 S2 F2 G2 Hc HM k line.
  destruct (macd_near rows c M fillna Hc HM (Z.of_nat s) (Z.of_nat f) (Z.of_nat g)) as (x1 & x2 & x3 & y1 & y2 & y3 & E1 & E2 & N1 & N2 & N3); try lia.
  destruct (macd_formula fillna s f g (length rows) c c c c S1 F1 G1) as (M1 & M2 & M3).
  cbn [compute] in *. unfold macd, macd_signal, macd_diff in *. rewrite E1. rewrite E2 in M1, M2, M3. cbn [bind] in *.
  do 3 eexists. do 3 (split; [reflexivity|]). destruct (big_bounds M HM) as (P & _). cbv zeta in M1, M2, M3. subst k line. cbv beta.
  injection M1 as <-. injection M2 as <-. injection M3 as <-. rewrite <- !INR_IZR_INZ in *.
  pose proof (pos_INR f). pose proof (pos_INR s). pose proof (pos_INR g).
  repeat split; apply near_within, near_fill; auto; try lia; apply part_pos; lra.
Qed.
