(** * EomError: ease of movement in binary64 (C114). *)
From Flocq Require Import Core PrimFloat.
From Coq Require Import Reals Lra Floats.
From Verif Require Import Lists Arith FloatArith FloatReal Order FloatOrder Api Align Causal CausalAdx Rows Running FloatPct EmaError FloatEma FloatTrack SpecNum Tab Averages SpecTracking Tracking RunningError WilderError RsiError Stuck RatioError RollError SpecFlow MfiError UlcerError.
Local Open Scope R_scope.
#[local] Arguments eta : simpl never.
#[local] Arguments u : simpl never.

(** ** sizes: 0, or between 2^-900 and 2^1000 *)
Definition sized (K : R) : Prop := K = 0 \/ bpow radix2 (-900) <= K <= bpow radix2 1000.
Lemma sized_pos : forall K, sized K -> 0 <= K.
Proof. intros K [->|H]; [lra|]. pose proof (bpow_gt_0 radix2 (-900)). lra. Qed.
Lemma sized_wide : forall e K, (e <= 900)%Z -> K = 0 \/ wide e K -> sized K.
Proof.
  intros e K He [->|[A B]]; [now left|right]. split; [eapply Rle_trans; [|exact A]|eapply Rle_trans; [exact B|]]; apply bpow_le; lia.
Qed.
Lemma sized_fits : forall K x, sized K -> Rabs x <= 101 / 100 * K -> Rabs x <= bpow radix2 1020.
Proof.
  intros K x HK H. assert (T : 2 * bpow radix2 1000 <= bpow radix2 1020) by (change 2 with (bpow radix2 1); rewrite <- bpow_plus; apply bpow_le; lia).
  pose proof (bpow_gt_0 radix2 1000). destruct HK as [->|[_ K2]]; lra.
Qed.
Lemma sized_rnd : forall K x, sized K -> Rabs x <= 101 / 100 * K -> Rabs (rnd x - x) <= 102 / 100 * u * K.
Proof.
  intros K x [->|[K1 K2]] H.
  - assert (x = 0) as -> by (apply abs_le_both in H; lra). rewrite rnd_0, Rminus_0_r, Rabs_R0. lra.
  - pose proof (rnd_K K K1 x (101 / 100 * K) H) as E. pose proof u_small. pose proof (bpow_gt_0 radix2 (-900)).
    assert (0 < u * K) by (apply Rmult_lt_0_compat; lra). lra.
Qed.
(** |x - y| <= k u K and |y| <= K *)
Definition off (k : R) (K x y : R) : Prop := Rabs (x - y) <= k * (u * K) /\ Rabs y <= K.
Lemma off_size : forall k K x y, 0 <= k <= 1000 -> 0 <= K -> off k K x y -> Rabs x <= 10001 / 10000 * K.
Proof.
  intros k K x y Hk HK [E B]. pose proof u_small. assert (k * (u * K) <= K / 10000).
  { replace (k * (u * K)) with ((k * u) * K) by ring. replace (K / 10000) with (/ 10000 * K) by field. apply Rmult_le_compat_r; auto.
    apply Rle_trans with (1000 * u); [apply Rmult_le_compat_r; lra|lra]. }
  replace x with (y + (x - y)) by ring. eapply Rle_trans; [apply Rabs_triang|]. lra.
Qed.
Lemma off_rnd : forall k K x y, 0 <= k <= 1000 -> sized K -> off k K x y -> rx (Fin x) = Fin (rnd x) /\ off (k + 102 / 100) K (rnd x) y.
Proof.
  intros k K x y Hk HK O. pose proof (sized_pos K HK) as P. pose proof (off_size k K x y Hk P O) as S. assert (S' : Rabs x <= 101 / 100 * K) by lra.
  split; [apply rx_small; now apply (sized_fits K)|]. destruct O as [E B]. split; [|exact B]. pose proof (sized_rnd K x HK S') as R.
  replace (rnd x - y) with ((rnd x - x) + (x - y)) by ring. eapply Rle_trans; [apply Rabs_triang|]. lra.
Qed.
Lemma off_self : forall K x, 0 <= K -> Rabs x <= K -> off 0 K x x.
Proof. intros K x P B. split; auto. replace (x - x) with 0 by ring. rewrite Rabs_R0. lra. Qed.
Lemma off_plus : forall k G H x y x' y', off k G x y -> off k H x' y' -> off k (G + H) (x + x') (y + y').
Proof.
  intros k G H x y x' y' [E B] [E' B']. split.
  - replace (x + x' - (y + y')) with ((x - y) + (x' - y')) by ring. eapply Rle_trans; [apply Rabs_triang|]. lra.
  - eapply Rle_trans; [apply Rabs_triang|]. lra.
Qed.
Lemma off_times : forall k k' G H x y x' y', 0 <= k <= 1000 -> 0 <= k' <= 100 -> 0 <= G -> 0 <= H -> off k G x y -> off k' H x' y' ->
  off (10001 / 10000 * k + k') (G * H) (x * x') (y * y').
Proof.
  intros k k' G H x y x' y' Hk Hk' PG PH O O'. pose proof (off_size k' H x' y' ltac:(lra) PH O') as S. destruct O as [E B], O' as [E' B']. split; [|now apply abs_prod].
  replace (x * x' - y * y') with ((x - y) * x' + y * (x' - y')) by ring. eapply Rle_trans; [apply Rabs_triang|].
  pose proof (abs_prod _ _ _ _ E S). pose proof (abs_prod _ _ _ _ B E'). 
  replace ((10001 / 10000 * k + k') * (u * (G * H))) with (k * (u * G) * (10001 / 10000 * H) + G * (k' * (u * H))) by field. lra.
Qed.
(** reciprocal of a positive number known to k units *)
Lemma off_recip : forall k x y, 0 <= k <= 1000 -> 0 < y -> off k y x y -> 0 < x /\ off (1001 / 1000 * k) (/ y) (/ x) (/ y).
Proof.
  intros k x y Hk Py O. pose proof O as [E _]. pose proof u_small.
  assert (KU : k * (u * y) <= y / 10000).
  { replace (k * (u * y)) with ((k * u) * y) by ring. replace (y / 10000) with (/ 10000 * y) by field. apply Rmult_le_compat_r; [lra|].
    apply Rle_trans with (1000 * u); [apply Rmult_le_compat_r; lra|lra]. }
  pose proof (abs_le_both _ _ E) as E2. assert (Px : 0 < x) by lra. split; [exact Px|].
  assert (Iy : 0 < / y) by (now apply Rinv_0_lt_compat). assert (Ix : 0 < / x) by (now apply Rinv_0_lt_compat). split; [|rewrite Rabs_pos_eq; lra].
  replace (/ x - / y) with (- (x - y) * (/ x * / y)) by (field; lra). rewrite Rabs_mult, Rabs_Ropp, (Rabs_pos_eq (/ x * / y)) by (apply Rmult_le_pos; lra).
  assert (Q : / x <= 1001 / 1000 * / y).
  { apply Rmult_le_reg_l with (x * y); [apply Rmult_lt_0_compat; lra|]. replace (x * y * / x) with y by (field; lra). replace (x * y * (1001 / 1000 * / y)) with (1001 / 1000 * x) by (field; lra). lra. }
  apply Rle_trans with (k * (u * y) * (/ x * / y)); [apply Rmult_le_compat_r; [apply Rmult_le_pos; lra|exact E]|].
  replace (k * (u * y) * (/ x * / y)) with ((k * u) * / x) by (field; lra). replace (1001 / 1000 * k * (u * / y)) with ((k * u) * (1001 / 1000 * / y)) by ring.
  apply Rmult_le_compat_l; [apply Rmult_le_pos; lra|exact Q].
Qed.

(** ** differences of prices *)
Lemma gap_wide : forall f g a b, val f = Fin a -> val g = Fin b -> tame a -> tame b -> Rabs (a - b) = 0 \/ wide 254 (Rabs (a - b)).
Proof.
  assert (L : forall f g a b, val f = Fin a -> val g = Fin b -> tame a -> tame b -> a < b -> wide 254 (b - a)).
  { intros f g a b Vf Vg Ta Tb H. pose proof (tame_pos a Ta) as Pa. destruct (tame_wide _ Ta) as [A1 _], (tame_wide _ Tb) as [_ B2].
    destruct (apart f g a b Vf Vg ltac:(lra)) as [_ P2]. split.
    - apply Rle_trans with (a * bpow radix2 (-53)); [|exact P2]. apply Rle_trans with (bpow radix2 (- 200) * bpow radix2 (-53)); [rewrite <- bpow_plus; apply bpow_le; lia|].
      apply Rmult_le_compat_r; [apply bpow_ge_0|exact A1].
    - apply Rle_trans with (bpow radix2 200); [lra|apply bpow_le; lia]. }
  intros f g a b Vf Vg Ta Tb. destruct (Rtotal_order a b) as [H|[->|H]].
  - right. rewrite Rabs_minus_sym, Rabs_pos_eq by lra. now apply (L f g).
  - left. replace (b - b) with 0 by ring. apply Rabs_R0.
  - right. rewrite Rabs_pos_eq by lra. now apply (L g f).
Qed.
Lemma gap_off : forall f g a b, val f = Fin a -> val g = Fin b -> tame a -> tame b ->
  val (fsub f g) = Fin (rnd (a - b)) /\ off (102 / 100) (Rabs (a - b)) (rnd (a - b)) (a - b).
Proof.
  intros f g a b Vf Vg Ta Tb. pose proof (sized_wide 254 _ ltac:(lia) (gap_wide f g a b Vf Vg Ta Tb)) as S.
  destruct (off_rnd 0 _ (a - b) (a - b) ltac:(lra) S (off_self _ _ (Rabs_pos _) (Rle_refl _))) as [R O]. rewrite Rplus_0_l in O.
  split; [|exact O]. rewrite val_sub, Vf, Vg. cbn [xsub xadd xopp]. exact R.
Qed.

Lemma off_rnd' : forall k K x y, off k K x y -> 0 <= k <= 1000 -> sized K -> rx (Fin x) = Fin (rnd x) /\ off (k + 102 / 100) K (rnd x) y.
Proof. intros. now apply off_rnd. Qed.
Lemma off_times' : forall k k' G H x y x' y', off k G x y -> off k' H x' y' -> 0 <= k <= 1000 -> 0 <= k' <= 100 -> 0 <= G -> 0 <= H ->
  off (10001 / 10000 * k + k') (G * H) (x * x') (y * y').
Proof. intros. now apply off_times. Qed.
Lemma val_quot : forall x y a b, val x = Fin a -> val y = Fin b -> b <> 0 -> val (fdiv x y) = rx (Fin (a * / b)).
Proof. intros x y a b Vx Vy B. rewrite val_div, Vx, Vy by (rewrite Vy; congruence). cbn [xdiv]. destruct Req_EM_T; [lra|reflexivity]. Qed.
(** one row *)
Lemma eom_value : forall fh f_l fph fpl fv h l ph pl v, val fh = Fin h -> val f_l = Fin l -> val fph = Fin ph -> val fpl = Fin pl -> val fv = Fin v ->
  tame h -> tame l -> tame ph -> tame pl -> tame v ->
  let K := (Rabs (h - ph) + Rabs (l - pl)) * Rabs (h - l) * / (2 * v) * 100000000 in
  exists q, val (fmul (fdiv (fmul (fadd (fsub fh fph) (fsub f_l fpl)) (fsub fh f_l)) (fmul (fofZ 2) fv)) (fofZ 100000000)) = Fin q /\
    off 8 K q ((h - ph + (l - pl)) * (h - l) * / (2 * v) * 100000000).
Proof.
  intros fh f_l fph fpl fv h l ph pl v Vh Vl Vph Vpl Vv Th Tl Tph Tpl Tv K.
  destruct (gap_off _ _ _ _ Vh Vph Th Tph) as [V1 O1]. destruct (gap_off _ _ _ _ Vl Vpl Tl Tpl) as [V2 O2]. destruct (gap_off _ _ _ _ Vh Vl Th Tl) as [V3 O3].
  pose proof (gap_wide _ _ _ _ Vh Vph Th Tph) as W1. pose proof (gap_wide _ _ _ _ Vl Vpl Tl Tpl) as W2. pose proof (gap_wide _ _ _ _ Vh Vl Th Tl) as W3.
  set (a := h - ph) in *. set (b := l - pl) in *. set (d := h - l) in *. set (G := Rabs a + Rabs b) in *. set (H := Rabs d) in *.
  assert (PG : 0 <= G) by (unfold G; pose proof (Rabs_pos a); pose proof (Rabs_pos b); lra). assert (PH : 0 <= H) by apply Rabs_pos.
  assert (WG : G = 0 \/ wide 255 G).
  { unfold G. pose proof (bpow_gt_0 radix2 (- (254))). assert (D1 : bpow radix2 (- (255)) <= bpow radix2 (- (254))) by (apply bpow_le; lia).
    assert (D2 : bpow radix2 255 = 2 * bpow radix2 254) by (change 2 with (bpow radix2 1); rewrite <- bpow_plus; reflexivity). pose proof (bpow_gt_0 radix2 254).
    destruct W1 as [->|[A1 A2]], W2 as [->|[B1 B2]]; [left; ring|right; split; lra..]. }
  pose proof (tame_pos v Tv) as Pv. assert (Wv : wide 201 (2 * v)).
  { destruct (tame_wide v Tv) as [A B]. apply (wide_mult 1 200 2 v); [|now split]. split; [|cbn; lra]. cbn. lra. }
  assert (Wi : wide 201 (/ (2 * v))) by (now apply wide_inv). assert (Pi : 0 < / (2 * v)) by (apply Rinv_0_lt_compat; lra).
  assert (WGH : G * H = 0 \/ wide 509 (G * H)).
  { destruct WG as [->|WG]; [left; ring|]. destruct W3 as [->|W3]; [left; ring|]. right. now apply (wide_mult 255 254). }
  assert (WQ : G * H * / (2 * v) = 0 \/ wide 710 (G * H * / (2 * v))).
  { destruct WGH as [->|W]; [left; ring|]. right. now apply (wide_mult 509 201). }
  assert (WK : K = 0 \/ wide 740 K).
  { unfold K. destruct WQ as [->|W]; [left; ring|]. right. apply (wide_mult 710 30); auto. split.
    - apply Rle_trans with 1; [change 1 with (bpow radix2 0); apply bpow_le; lia|lra].
    - cbn. lra. }
  destruct (off_rnd (102 / 100) G _ _ ltac:(lra) (sized_wide 255 _ ltac:(lia) WG) (off_plus _ _ _ _ _ _ _ O1 O2)) as [R4 O4].
  assert (V4 : val (fadd (fsub fh fph) (fsub f_l fpl)) = Fin (rnd (rnd a + rnd b))) by (rewrite val_add, V1, V2; exact R4).
  destruct (off_rnd' _ _ _ _ (off_times' _ _ _ _ _ _ _ _ O4 O3 ltac:(lra) ltac:(lra) PG PH) ltac:(lra) (sized_wide 509 _ ltac:(lia) WGH)) as [R5 O5].
  assert (V5 : val (fmul (fadd (fsub fh fph) (fsub f_l fpl)) (fsub fh f_l)) = Fin (rnd (rnd (rnd a + rnd b) * rnd d))) by (rewrite val_mul, V4, V3; exact R5).
  destruct (off_rnd 0 (2 * v) (2 * v) (2 * v) ltac:(lra) (sized_wide 201 _ ltac:(lia) (or_intror Wv)) (off_self (2 * v) (2 * v) ltac:(lra) ltac:(rewrite Rabs_pos_eq; lra))) as [R6 O6].
  assert (V6 : val (fmul (fofZ 2) fv) = Fin (rnd (2 * v))) by (rewrite val_mul, (val_small 2) by lia; rewrite Vv; exact R6).
  destruct (off_recip (0 + 102 / 100) (rnd (2 * v)) (2 * v) ltac:(lra) ltac:(lra) O6) as [P6 O7].
  set (p := rnd (rnd (rnd a + rnd b) * rnd d)) in *. set (e := rnd (2 * v)) in *.
  destruct (off_rnd' _ _ _ _ (off_times' _ _ _ _ _ _ _ _ O5 O7 ltac:(lra) ltac:(lra) ltac:(now apply Rmult_le_pos) ltac:(lra)) ltac:(lra) (sized_wide 710 _ ltac:(lia) WQ)) as [R8 O8].
  assert (V8 : val (fdiv (fmul (fadd (fsub fh fph) (fsub f_l fpl)) (fsub fh f_l)) (fmul (fofZ 2) fv)) = Fin (rnd (p * / e))).
  { rewrite (val_quot _ _ _ _ V5 V6 ltac:(lra)). exact R8. }
  destruct (off_rnd' _ _ _ _ (off_times' _ _ _ _ _ _ _ _ O8 (off_self 100000000 100000000 ltac:(lra) ltac:(rewrite Rabs_pos_eq; lra))
    ltac:(lra) ltac:(lra) ltac:(apply Rmult_le_pos; [now apply Rmult_le_pos|lra]) ltac:(lra)) ltac:(lra) (sized_wide 740 _ ltac:(lia) WK)) as [R9 O9].
  eexists. split; [rewrite val_mul, V8, (val_small 100000000) by lia; exact R9|].
  destruct O9 as [E9 B9]. split; [|exact B9]. eapply Rle_trans; [exact E9|]. apply Rmult_le_compat_r; [|lra].
  apply Rmult_le_pos; [pose proof u_small; lra|]. exact (sized_pos _ (sized_wide 740 _ ltac:(lia) WK)).
Qed.

(** ** the column *)
Lemma diff_cell : forall (s : list float) i, (S i < length s)%nat -> nth (S i) (diff1 s) fnan = fsub (nth (S i) s fnan) (nth i s fnan).
Proof.
  intros s i H. unfold diff1, ssub. rewrite (nth_map2_lt fsub _ _ _ fnan fnan fnan) by (rewrite ?len_shift1; lia). rewrite CausalAdx.nth_shift1 by lia. reflexivity.
Qed.
Theorem eom_row : forall rows h l c v, priced rows h l c v ->
  forall w fillna out i x, compute (Eom w) fillna rows = Ok out -> nth_error out i = Some x -> (1 <= i)%nat -> 0 < v i ->
  within (part 1 ((Rabs (delta h i) + Rabs (delta l i)) * Rabs (h i - l i) / (2 * v i) * 100000000)) x (Fin (emv_value h l v i)).
Proof.
  intros rows h l c v Hp w fl out i x E Nx Hi Pv. cbn [compute] in E. unfold ease_of_movement in E. apply ok_inj in E. subst out.
  set (hs := map b_high rows) in *. set (ls := map b_low rows) in *. set (vs := map b_volume rows) in *.
  assert (Lh : length hs = length rows) by apply map_length. assert (Ll : length ls = length rows) by apply map_length. assert (Lv : length vs = length rows) by apply map_length.
  assert (L1 : length (diff1 hs) = length rows) by (unfold diff1, ssub; rewrite len_map2; rewrite ?len_shift1; auto).
  assert (L2 : length (diff1 ls) = length rows) by (unfold diff1, ssub; rewrite len_map2; rewrite ?len_shift1; auto).
  assert (L3 : length (sadd (diff1 hs) (diff1 ls)) = length rows) by (unfold sadd; rewrite len_map2; lia).
  assert (L4 : length (ssub hs ls) = length rows) by (unfold ssub; rewrite len_map2; lia).
  assert (L5 : length (smul (sadd (diff1 hs) (diff1 ls)) (ssub hs ls)) = length rows) by (unfold smul; rewrite len_map2; lia).
  assert (L6 : length (scal (fofZ 2) vs) = length rows) by (unfold scal; rewrite map_length; lia).
  assert (L7 : length (sdiv (smul (sadd (diff1 hs) (diff1 ls)) (ssub hs ls)) (scal (fofZ 2) vs)) = length rows) by (unfold sdiv; rewrite len_map2; lia).
  assert (Lr : length (emv hs ls vs) = length rows) by (unfold emv, muls; rewrite map_length; exact L7).
  assert (Hn : (i < length rows)%nat).
  { assert (Q : nth_error (check_fillna fl (FillInt 0) (emv hs ls vs)) i <> None) by congruence. apply nth_error_Some in Q. rewrite check_length, Lr in Q. exact Q. }
  assert (Cells : forall k, (k < length rows)%nat -> (val (nth k hs fnan) = Fin (h k) /\ tame (h k)) /\ (val (nth k ls fnan) = Fin (l k) /\ tame (l k)) /\
    (val (nth k vs fnan) = Fin (v k) /\ (v k = 0 \/ tame (v k)))).
  { intros k Hk. destruct (nth_error rows k) as [b|] eqn:Eb; [|apply nth_error_None in Eb; lia]. destruct (Hp k b Eb) as (A & B & _ & D).
    unfold hs, ls, vs. rewrite !(nth_map_lt _ _ _ _ b) by auto. rewrite (nth_error_nth _ _ b Eb). auto. }
  destruct i as [|i]; [lia|]. destruct (Cells (S i) Hn) as ([V1 T1] & [V2 T2] & [V3 T3]). destruct (Cells i ltac:(lia)) as ([V4 T4] & [V5 T5] & _).
  destruct T3 as [T3|T3]; [lra|].
  assert (N : nth (S i) (emv hs ls vs) fnan = fmul (fdiv (fmul (fadd (fsub (nth (S i) hs fnan) (nth i hs fnan)) (fsub (nth (S i) ls fnan) (nth i ls fnan))) (fsub (nth (S i) hs fnan) (nth (S i) ls fnan)))
    (fmul (fofZ 2) (nth (S i) vs fnan))) (fofZ 100000000)).
  { unfold emv, muls. rewrite (nth_map_lt _ _ _ _ fnan) by lia. unfold sdiv. rewrite (nth_map2_lt fdiv _ _ _ fnan fnan fnan) by lia.
    unfold smul at 1. rewrite (nth_map2_lt fmul _ _ _ fnan fnan fnan) by lia. unfold scal. rewrite (nth_map_lt _ _ _ _ fnan) by lia.
    unfold sadd. rewrite (nth_map2_lt fadd _ _ _ fnan fnan fnan) by lia. rewrite !diff_cell by lia.
    unfold ssub. rewrite (nth_map2_lt fsub _ _ _ fnan fnan fnan) by lia. reflexivity. }
  destruct (eom_value _ _ _ _ _ _ _ _ _ _ V1 V2 V4 V5 V3 T1 T2 T4 T5 T3) as (q & Vq & [Eq _]). rewrite <- N in Vq.
  assert (X : x = nth (S i) (emv hs ls vs) fnan).
  { rewrite <- (kept_row fl 0 (emv hs ls vs) (S i) q ltac:(lia) ltac:(lia) Vq). now rewrite (nth_error_nth _ _ fnan Nx). }
  rewrite X. unfold within. exists q. split; [exact Vq|].
  unfold emv_value, delta. replace (S i - 1)%nat with i by lia. unfold Rdiv. eapply Rle_trans; [exact Eq|].
  unfold part, u. change (IZR (2 ^ 50)) with 1125899906842624. lra.
Qed.
(** highs and lows that move the same way *)
Theorem eom_same_way : forall rows h l c v, priced rows h l c v ->
  forall w fillna out i x, compute (Eom w) fillna rows = Ok out -> nth_error out i = Some x -> (1 <= i)%nat -> 0 < v i ->
  0 <= delta h i * delta l i ->
  within (part 1 (Rabs (emv_value h l v i))) x (Fin (emv_value h l v i)).
Proof.
  intros rows h l c v Hp w fl out i x E Nx Hi Pv D. pose proof (eom_row rows h l c v Hp w fl out i x E Nx Hi Pv) as H.
  replace (Rabs (emv_value h l v i)) with ((Rabs (delta h i) + Rabs (delta l i)) * Rabs (h i - l i) / (2 * v i) * 100000000); [exact H|].
  assert (P : 0 < / (2 * v i)) by (apply Rinv_0_lt_compat; lra).
  unfold emv_value, Rdiv. rewrite !Rabs_mult, (Rabs_pos_eq (/ _)), (Rabs_pos_eq 100000000) by lra. do 3 f_equal.
  unfold Rabs. destruct (Rcase_abs (delta h i)), (Rcase_abs (delta l i)), (Rcase_abs (delta h i + delta l i)); nra.
Qed.
