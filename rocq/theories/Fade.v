(** * Fade: lemmas for C105, results with and without fillna on late rows. *)
From Coq Require Import Reals Lra.
From Verif Require Import Lists Api SpecNum Rows Tab Averages Bands Channels Cycles Oscillators Kama Flows SpecForget Forget SpecStart Start SpecFade.
Local Open Scope R_scope.

Lemma ltb0 : forall i, (i <? 0)%nat = false.
Proof. reflexivity. Qed.
(** the same data averaged from row a on and from a later row b on *)
Lemma late_seed : forall w f a b i, (a <= b <= i)%nat -> ema w f a i - ema w f b i = (1 - 2 / (INR w + 1)) ^ (i - b) * (ema w f a b - f b).
Proof.
  intros w f a b i H. unfold ema, expavg. replace (i - a)%nat with ((b - a) + (i - b))%nat by lia. rewrite (exp_meet _ f f a b (b - a) (i - b)); [reflexivity|].
  intros t Ht. f_equal. lia.
Qed.
Lemma seed_gap : forall w f a b m M, (1 <= w)%nat -> (a <= b)%nat -> (forall t, (a <= t <= b)%nat -> m <= f t <= M) -> Rabs (ema w f a b - f b) <= M - m.
Proof.
  intros w f a b m M Hw Hab H. assert (A := ema_bounds w f a b m M Hw ltac:(intros; apply H; lia)). assert (B := H b ltac:(lia)). apply Rabs_le. lra.
Qed.
Lemma pow_rate : forall w j, (1 <= w)%nat -> 0 <= (1 - 2 / (INR w + 1)) ^ j <= 1.
Proof.
  intros w j Hw. assert (S0 := span w Hw). split; [apply pow_le; lra|]. assert (X := pow_incr (1 - 2 / (INR w + 1)) 1 j ltac:(lra)). now rewrite pow1 in X.
Qed.
Lemma late_seed_abs : forall w f a b i m M, (1 <= w)%nat -> (a <= b <= i)%nat -> (forall t, (a <= t <= b)%nat -> m <= f t <= M) ->
  Rabs (ema w f a i - ema w f b i) <= (1 - 2 / (INR w + 1)) ^ (i - b) * (M - m).
Proof.
  intros w f a b i m M Hw Hi H. rewrite late_seed by auto. assert (P := pow_rate w (i - b) Hw). rewrite Rabs_mult, Rabs_pos_eq by lra.
  apply Rmult_le_compat_l; [lra|]. apply seed_gap; auto. lia.
Qed.

Ltac opening2 := do 2 eexists; split; [reflexivity|]; split; [reflexivity|]; intros i Hi; rewrite !nth_tab by lia.
Section Market.
Variables (n : nat) (h l c v : nat -> R).
Let plain ind := compute ind false (frame n h l c v).
Let filled ind := compute ind true (frame n h l c v).

(** ** signal lines *)
Lemma signal_gap : forall g K line m M (sig diff : indicator xr), (1 <= g)%nat -> (K < n)%nat -> (forall t, (t <= K)%nat -> m <= line t <= M) ->
  plain sig = Ok (tab n (gaps false 0 (K + warm false g) (ema g line K))) -> filled sig = Ok (tab n (gaps true 0 0 (ema g line 0))) ->
  plain diff = Ok (tab n (gaps false 0 (K + warm false g) (fun i => line i - ema g line K i))) -> filled diff = Ok (tab n (gaps true 0 0 (fun i => line i - ema g line 0 i))) ->
  exists d, Rabs d <= M - m /\ apart (fun i => (1 - 2 / (INR g + 1)) ^ (i - K) * d) (K + (g - 1)) n (plain sig) (filled sig) /\
    apart (fun i => - ((1 - 2 / (INR g + 1)) ^ (i - K) * d)) (K + (g - 1)) n (plain diff) (filled diff).
Proof.
  intros g K line m M sig diff Hg HK H E1 E2 E3 E4. exists (ema g line 0 K - line K). split; [|split].
  - apply seed_gap; auto; [lia|]. intros; apply H; lia.
  - rewrite E1, E2. opening2. unfold gaps. cbn [warm] in *. rewrite ?ltb0, (proj2 (Nat.ltb_ge i (K + (g - 1)))) by lia. eexists. split; [reflexivity|]. f_equal.
    rewrite <- late_seed by lia. ring.
  - rewrite E3, E4. opening2. unfold gaps. cbn [warm] in *. rewrite ?ltb0, (proj2 (Nat.ltb_ge i (K + (g - 1)))) by lia. eexists. split; [reflexivity|]. f_equal.
    rewrite <- late_seed by lia. ring.
Qed.
Lemma macd_fill : forall s f g lo hi, (1 <= s)%nat -> (1 <= f)%nat -> (1 <= g)%nat -> (Nat.max f s <= n)%nat -> inside lo hi n c ->
  let K := (Nat.max f s - 1)%nat in
  exists d, Rabs d <= 2 * (hi - lo) /\
    apart (fun i => (1 - 2 / (INR g + 1)) ^ (i - K) * d) (K + (g - 1)) n
      (plain (MacdSignal (Z.of_nat s) (Z.of_nat f) (Z.of_nat g))) (filled (MacdSignal (Z.of_nat s) (Z.of_nat f) (Z.of_nat g))) /\
    apart (fun i => - ((1 - 2 / (INR g + 1)) ^ (i - K) * d)) (K + (g - 1)) n
      (plain (MacdDiff (Z.of_nat s) (Z.of_nat f) (Z.of_nat g))) (filled (MacdDiff (Z.of_nat s) (Z.of_nat f) (Z.of_nat g))).
Proof.
  intros s f g lo hi Hs Hf Hg Hn H K. destruct (macd_formula false s f g n h l c v Hs Hf Hg) as (_ & E1 & E3). destruct (macd_formula true s f g n h l c v Hs Hf Hg) as (_ & E2 & E4).
  destruct (signal_gap g K (fun i => ema f c 0 i - ema s c 0 i) (- (hi - lo)) (hi - lo) (MacdSignal (Z.of_nat s) (Z.of_nat f) (Z.of_nat g)) (MacdDiff (Z.of_nat s) (Z.of_nat f) (Z.of_nat g))) as (d & Hd & A); auto.
  - unfold K. lia.
  - intros t Ht. assert (A := ema_bounds f c 0 t lo hi Hf ltac:(intros; apply H; unfold K in *; lia)). assert (B := ema_bounds s c 0 t lo hi Hs ltac:(intros; apply H; unfold K in *; lia)). lra.
  - exists d. split; [lra|exact A].
Qed.
Lemma ppo_size : forall s f t lo hi, (1 <= s)%nat -> (1 <= f)%nat -> 0 < lo -> (forall i, (i <= t)%nat -> lo <= c i <= hi) ->
  - (100 * (hi - lo) / lo) <= (ema f c 0 t - ema s c 0 t) / ema s c 0 t * 100 <= 100 * (hi - lo) / lo.
Proof.
  intros s f t lo hi Hs Hf L H. assert (A := ema_bounds f c 0 t lo hi Hf ltac:(intros; apply H; lia)). assert (B := ema_bounds s c 0 t lo hi Hs ltac:(intros; apply H; lia)).
  set (x := ema f c 0 t) in *. set (y := ema s c 0 t) in *. replace ((x - y) / y * 100) with (100 * ((x - y) * / y)) by (field; lra).
  replace (100 * (hi - lo) / lo) with (100 * ((hi - lo) * / lo)) by (field; lra).
  assert (I : 0 < / y <= / lo) by (split; [apply Rinv_0_lt_compat; lra|apply Rinv_le_contravar; lra]).
  assert (P : (hi - lo) * / y <= (hi - lo) * / lo) by (apply Rmult_le_compat_l; lra).
  assert (P1 : (x - y) * / y <= (hi - lo) * / y) by (apply Rmult_le_compat_r; lra).
  assert (P2 : - (hi - lo) * / y <= (x - y) * / y) by (apply Rmult_le_compat_r; lra). lra.
Qed.
Lemma ppo_fill : forall s f g lo hi, (1 <= s)%nat -> (1 <= f)%nat -> (1 <= g)%nat -> (Nat.max f s <= n)%nat -> 0 < lo -> inside lo hi n c ->
  let K := (Nat.max f s - 1)%nat in
  exists d, Rabs d <= 200 * (hi - lo) / lo /\
    apart (fun i => (1 - 2 / (INR g + 1)) ^ (i - K) * d) (K + (g - 1)) n
      (plain (PpoSignal (Z.of_nat s) (Z.of_nat f) (Z.of_nat g))) (filled (PpoSignal (Z.of_nat s) (Z.of_nat f) (Z.of_nat g))) /\
    apart (fun i => - ((1 - 2 / (INR g + 1)) ^ (i - K) * d)) (K + (g - 1)) n
      (plain (PpoHist (Z.of_nat s) (Z.of_nat f) (Z.of_nat g))) (filled (PpoHist (Z.of_nat s) (Z.of_nat f) (Z.of_nat g))).
Proof.
  intros s f g lo hi Hs Hf Hg Hn L H K.
  assert (NZ : forall i, (i < n)%nat -> ema s c 0 i <> 0) by (intros i Hi; assert (B := ema_bounds s c 0 i lo hi Hs ltac:(intros; apply H; lia)); lra).
  destruct (ppo_formula false s f g n h l c v Hs Hf Hg NZ) as (_ & E1 & E3). destruct (ppo_formula true s f g n h l c v Hs Hf Hg NZ) as (_ & E2 & E4).
  destruct (signal_gap g K (fun i => (ema f c 0 i - ema s c 0 i) / ema s c 0 i * 100) (- (100 * (hi - lo) / lo)) (100 * (hi - lo) / lo) (PpoSignal (Z.of_nat s) (Z.of_nat f) (Z.of_nat g)) (PpoHist (Z.of_nat s) (Z.of_nat f) (Z.of_nat g))) as (d & Hd & A); auto.
  - unfold K. lia.
  - intros t Ht. apply ppo_size; auto. intros i Hi. apply H. unfold K in *. lia.
  - exists d. split; [|exact A]. eapply Rle_trans; [exact Hd|]. apply Req_le. field. lra.
Qed.

(** ** KST, Ichimoku, band indicators: nothing is left *)
Lemma kst_fill : forall r1 r2 r3 r4 w1 w2 w3 w4 s, (1 <= w1)%nat -> (1 <= w2)%nat -> (1 <= w3)%nat -> (1 <= w4)%nat -> (1 <= s)%nat -> (forall i, (i < n)%nat -> 0 < c i) ->
  let k := (Nat.max (Nat.max w1 w2) (Nat.max w3 w4) - 1 + (s - 1))%nat in
  let with_windows ind := ind (Z.of_nat r1) (Z.of_nat r2) (Z.of_nat r3) (Z.of_nat r4) (Z.of_nat w1) (Z.of_nat w2) (Z.of_nat w3) (Z.of_nat w4) (Z.of_nat s) in
  agree k n (plain (with_windows KstSig)) (filled (with_windows KstSig)) /\ agree k n (plain (with_windows KstDiff)) (filled (with_windows KstDiff)).
Proof.
  intros r1 r2 r3 r4 w1 w2 w3 w4 s H1 H2 H3 H4 Hs H k ww. unfold ww, plain, filled.
  destruct (kst_formula false r1 r2 r3 r4 w1 w2 w3 w4 s n h l c v H1 H2 H3 H4 Hs H) as (_ & -> & ->). destruct (kst_formula true r1 r2 r3 r4 w1 w2 w3 w4 s n h l c v H1 H2 H3 H4 Hs H) as (_ & -> & ->).
  set (line := fun i => 100 * _). set (K := (Nat.max (Nat.max w1 w2) (Nat.max w3 w4) - 1)%nat).
  assert (E : forall i, (k <= i)%nat -> wmean_from K s line i = wmean_from 0 s line i).
  { intros i Hi. unfold wmean_from, wlo. replace (Nat.max K (S i - s)) with (Nat.max 0 (S i - s)) by (unfold k in *; fold K in Hi; lia). reflexivity. }
  split; unfold agree; opening2; unfold from, fromx; cbn [warm]; fold K; fold line; rewrite ?ltb0, (proj2 (Nat.ltb_ge i K)) by (unfold k in *; fold K in Hi; lia); (eexists; split; [reflexivity|]); f_equal; rewrite E by lia; ring.
Qed.
Lemma ichimoku_fill : forall w1 w2 w3, (1 <= w1)%nat -> (1 <= w2)%nat -> (1 <= w3)%nat ->
  agree (w2 + (Nat.max w1 w2 - 1)) n (plain (IchiA (Z.of_nat w1) (Z.of_nat w2) (Z.of_nat w3) true)) (filled (IchiA (Z.of_nat w1) (Z.of_nat w2) (Z.of_nat w3) true)).
Proof.
  intros w1 w2 w3 H1 H2 H3. unfold plain, filled, agree. destruct (ichi_visual false w1 w2 w3 n h l c v H1 H2 H3) as ((o & E & R) & _). destruct (ichi_visual true w1 w2 w3 n h l c v H1 H2 H3) as ((o' & E' & L & R' & _) & _).
  exists o, o'. split; [exact E|]. split; [exact E'|]. intros i Hi. subst o. rewrite len_tab in *. specialize (R' i ltac:(lia)). rewrite !nth_tab in * by lia. rewrite (proj2 (Nat.ltb_ge i w2)) in * by lia.
  unfold from, fromx in *. cbn [warm] in *. rewrite ?ltb0 in *. rewrite (proj2 (Nat.ltb_ge (i - w2) (Nat.max w1 w2 - 1))) by lia. eexists. split; [reflexivity|]. change NaN with (@fnan xr XR). rewrite R' by reflexivity. f_equal. ring.
Qed.
Lemma bands_fill : forall w d a m, (1 <= w)%nat ->
  agree (w - 1) n (plain (BbHI (Z.of_nat w) (Fin d))) (filled (BbHI (Z.of_nat w) (Fin d))) /\ agree (w - 1) n (plain (BbLI (Z.of_nat w) (Fin d))) (filled (BbLI (Z.of_nat w) (Fin d))) /\
  ((1 <= a <= n)%nat -> agree (w - 1) n (plain (KcHI (Z.of_nat w) (Z.of_nat a) false (Fin m))) (filled (KcHI (Z.of_nat w) (Z.of_nat a) false (Fin m))) /\
    agree (w - 1) n (plain (KcLI (Z.of_nat w) (Z.of_nat a) false (Fin m))) (filled (KcLI (Z.of_nat w) (Z.of_nat a) false (Fin m)))).
Proof.
  intros w d a m Hw. unfold plain, filled, agree. destruct (bb_indicators false w d n h l c v Hw) as (-> & ->). destruct (bb_indicators true w d n h l c v Hw) as (-> & ->).
  split; [|split; [|intros Ha; destruct (kc_bands_ema false w a m n h l c v Hw Ha) as (_ & _ & _ & -> & ->); destruct (kc_bands_ema true w a m n h l c v Hw Ha) as (_ & _ & _ & -> & ->); split]]; opening2;
  unfold from, fromx, above, below; cbn [warm]; rewrite ?ltb0, (proj2 (Nat.ltb_ge i (w - 1))) by lia; (eexists; split; [reflexivity|]); f_equal; ring.
Qed.

(** ** TSI *)
Lemma tsi_fill : forall s f lo hi i, (1 <= s)%nat -> (1 <= f)%nat -> inside lo hi n c -> (s + (f - 1) <= i < n)%nat ->
  let size := ema f (ema s (fun t => Rabs (delta c t)) 1) s i in 0 < size ->
  exists out out' x x', plain (Tsi (Z.of_nat s) (Z.of_nat f)) = Ok out /\ filled (Tsi (Z.of_nat s) (Z.of_nat f)) = Ok out' /\
    nth i out NaN = Fin x /\ nth i out' NaN = Fin x' /\ Rabs (x' - x) <= 100 * ((1 - 2 / (INR f + 1)) ^ (i - s) * (3 * (hi - lo)) / size).
Proof.
  intros s f lo hi i Hs Hf H Hi size P. set (dl := hi - lo).
  assert (Dl : forall t, (1 <= t < n)%nat -> - dl <= delta c t <= dl) by (intros t Ht; assert (A := H t ltac:(lia)); assert (B := H (t - 1)%nat ltac:(lia)); unfold delta, dl; lra).
  assert (Da : forall t, (1 <= t < n)%nat -> 0 <= Rabs (delta c t) <= dl) by (intros t Ht; split; [apply Rabs_pos|apply Rabs_le, Dl, Ht]).
  set (g := ema s (delta c) 1). set (ga := ema s (fun t => Rabs (delta c t)) 1).
  set (N := ema f g 1 i). set (B := ema f ga 1 i). set (N' := ema f g s i). change (ema f ga s i) with size in *.
  assert (HN : Rabs N <= B) by (unfold N, B, ema, expavg; apply exp_abs; [now apply span|]; intros t Ht; apply exp_abs; [now apply span|]; intros; apply Rle_refl).
  assert (E1 : Rabs (N - N') <= (1 - 2 / (INR f + 1)) ^ (i - s) * (2 * dl)).
  { replace (2 * dl) with (dl - - dl) by ring. apply late_seed_abs; auto; [lia|]. intros t Ht. unfold g. apply ema_bounds; auto. intros; apply Dl; lia. }
  assert (E2 : Rabs (B - size) <= (1 - 2 / (INR f + 1)) ^ (i - s) * dl).
  { replace dl with (dl - 0) by ring. apply late_seed_abs; auto; [lia|]. intros t Ht. unfold ga. apply ema_bounds; auto. intros; apply Da; lia. }
  assert (HB : B <> 0).
  { assert (Gp : forall t, 0 <= ga t) by (intros t; apply Rle_trans with (Rabs (g t)); [apply Rabs_pos|]; apply exp_abs; [now apply span|]; intros; apply Rle_refl).
    assert (Z := exp_share (2 / (INR f + 1)) ga ga 1 s (s - 1) (i - s) 1 (span f Hf) ltac:(lra) ltac:(intros; apply Gp)). rewrite Rmult_1_l in Z.
    replace (s - 1 + (i - s))%nat with (i - 1)%nat in Z by lia.
    assert (Z0 : 2 / (INR f + 1) * size <= B) by (apply Z; intros t; rewrite Rmult_1_l; replace (1 + (s - 1) + t)%nat with (s + t)%nat by lia; apply Rle_refl).
    assert (0 < 2 / (INR f + 1) * size) by (apply Rmult_lt_0_compat; [apply (span f Hf)|exact P]). lra. }
  assert (F1 := tsi_formula false s f n h l c v Hs Hf). assert (F2 := tsi_formula true s f n h l c v Hs Hf). cbv zeta in F1, F2. cbn [warm] in F1, F2. replace (1 + (s - 1))%nat with s in F1 by lia. rewrite Nat.add_0_r in F2.
  pose proof F1 as (out & E & _). pose proof F2 as (out' & E' & _).
  exists out, out', (N' / size * 100), (N / B * 100). split; [exact E|]. split; [exact E'|]. split; [|split].
  - eapply shows_row; [exact F1|exact E|lia|]. unfold fromx. rewrite (proj2 (Nat.ltb_ge i (s + (f - 1)))) by lia.
    fold g. fold ga. fold N'. change (ema f ga s i) with size. unfold ratio. destruct Req_EM_T; [lra|]. reflexivity.
  - eapply shows_row; [exact F2|exact E'|lia|]. unfold fromx. rewrite (proj2 (Nat.ltb_ge i (1 + 0))) by lia.
    rewrite Nat.add_0_r. fold g. fold ga. fold N B. unfold ratio. destruct Req_EM_T; [contradiction|]. reflexivity.
  - assert (Q := quot_late N B N' size _ _ HN P E1 E2). destruct Req_EM_T; [contradiction|]. replace (N / B * 100 - N' / size * 100) with (100 * (N / B - N' / size)) by ring.
    rewrite Rabs_mult, (Rabs_pos_eq 100) by lra. apply Rmult_le_compat_l; [lra|]. eapply Rle_trans; [exact Q|]. apply Req_le. unfold dl. pose proof (pos_INR f). field. lra.
Qed.

(** ** TRIX *)
Lemma quot_gap : forall x y x' y' lo hi e, 0 < lo -> lo <= x <= hi -> lo <= y -> lo <= x' -> lo <= y' -> Rabs (x' - x) <= e -> Rabs (y' - y) <= e ->
  Rabs ((x' - y') / y' * 100 - (x - y) / y * 100) <= 100 * (e / lo + hi * e / Rsqr lo).
Proof.
  intros x y x' y' lo hi e L Hx Hy Hx' Hy' Ex Ey. replace ((x' - y') / y' * 100 - (x - y) / y * 100) with (100 * ((x' - x) * / y' + x * (y - y') * (/ y * / y'))) by (field; lra).
  rewrite Rabs_mult, (Rabs_pos_eq 100) by lra. apply Rmult_le_compat_l; [lra|]. eapply Rle_trans; [apply Rabs_triang|]. rewrite !Rabs_mult.
  assert (I : 0 < / lo) by now apply Rinv_0_lt_compat.
  assert (Iy : 0 < / y <= / lo) by (split; [apply Rinv_0_lt_compat; lra|apply Rinv_le_contravar; lra]). assert (Iy' : 0 < / y' <= / lo) by (split; [apply Rinv_0_lt_compat; lra|apply Rinv_le_contravar; lra]).
  rewrite (Rabs_pos_eq (/ y)), (Rabs_pos_eq (/ y')), (Rabs_pos_eq x) by lra. rewrite (Rabs_minus_sym y y').
  assert (A1 : Rabs (x' - x) * / y' <= e * / lo) by (apply Rmult_le_compat; try apply Rabs_pos; lra).
  assert (A2 : x * Rabs (y' - y) <= hi * e) by (apply Rmult_le_compat; try apply Rabs_pos; lra).
  assert (A3 : / y * / y' <= / lo * / lo) by (apply Rmult_le_compat; lra).
  assert (A4 : x * Rabs (y' - y) * (/ y * / y') <= hi * e * (/ lo * / lo)).
  { apply Rmult_le_compat; auto; [apply Rmult_le_pos; [lra|apply Rabs_pos]|apply Rmult_le_pos; lra]. }
  replace (e / lo + hi * e / Rsqr lo) with (e * / lo + hi * e * (/ lo * / lo)) by (unfold Rsqr; field; lra). lra.
Qed.
Lemma ema3_gap : forall w lo hi i, (1 <= w)%nat -> inside lo hi n c -> let k := (w - 1)%nat in (k + k <= i < n)%nat ->
  Rabs (ema3 w 0 c i - ema3 w k c i) <= (hi - lo) * (1 - 2 / (INR w + 1)) ^ (i - (k + k)) * (1 + 2 / (INR w + 1) * INR (i - (k + k))).
Proof.
  intros w lo hi i Hw H k Hi. assert (S0 := span w Hw). set (q := 1 - 2 / (INR w + 1)). set (e1 := ema w c 0).
  assert (H1 : forall t, (t < n)%nat -> lo <= e1 t <= hi) by (intros t Ht; apply ema_bounds; auto; intros; apply H; lia).
  assert (D0 : 0 <= hi - lo) by (specialize (H1 0%nat ltac:(lia)); lra).
  assert (H2 : forall a t, (a <= t < n)%nat -> lo <= ema w e1 a t <= hi) by (intros a t Ht; apply ema_bounds; auto; intros; apply H1; lia).
  unfold ema3. fold e1. cbn [Nat.add]. unfold ema at 1 3, expavg at 1. replace (expavg (2 / (INR w + 1)) (ema w e1 k) (k + k) i) with (exp_go (2 / (INR w + 1)) (ema w e1 k) (k + k) (i - (k + k))) by reflexivity.
  replace (i - 0)%nat with (k + k + (i - (k + k)))%nat by lia.
  (* beyond row n the two are made equal *)
  pose (f1 := fun t => if (t <? n)%nat then ema w e1 0 t else ema w e1 k t).
  assert (X : forall j, (j < n)%nat -> exp_go (2 / (INR w + 1)) (ema w e1 0) 0 j = exp_go (2 / (INR w + 1)) f1 0 j).
  { assert (Y : forall t, (t < n)%nat -> f1 t = ema w e1 0 t) by (intros t Ht; unfold f1; now rewrite (proj2 (Nat.ltb_lt t n) Ht)).
    induction j; intros Hj; cbn [exp_go]; rewrite Y by lia; [reflexivity|]. now rewrite IHj by lia. }
  rewrite X by lia. apply exp_meet_slow; auto; try (unfold q; lra).
  - intros t Ht. cbn [Nat.add]. unfold f1. destruct (Nat.ltb_spec (k + k + t) n).
    + eapply Rle_trans; [apply (late_seed_abs w e1 0 k (k + k + t) lo hi); auto; [lia|intros; apply H1; lia]|]. fold q. rewrite Rmult_comm. apply Rmult_le_compat_l; auto.
      replace (k + k + t - k)%nat with (k + t)%nat by lia. rewrite pow_add. rewrite <- (Rmult_1_l (q ^ t)) at 2. assert (Pk := pow_rate w k Hw). assert (Pt := pow_rate w t Hw). fold q in Pk, Pt. apply Rmult_le_compat_r; lra.
    + rewrite Rminus_diag_eq, Rabs_R0 by reflexivity. apply Rmult_le_pos; auto. apply (pow_rate w t Hw).
  - rewrite <- X by lia. assert (A := exp_bounds (2 / (INR w + 1)) (ema w e1 0) 0 (k + k) lo hi S0 ltac:(intros; apply H2; lia)). assert (B := H2 k (k + k)%nat ltac:(lia)). apply Rabs_le. lra.
Qed.
Lemma trix_fill : forall w lo hi, (1 <= w)%nat -> 0 < lo -> inside lo hi n c -> let k := (3 * (w - 1) + 1)%nat in let a := 2 / (INR w + 1) in
  fades (fun i => 100 * ((1 + hi / lo) * ((hi - lo) / lo) * ((1 - a) ^ (i - k) * (1 + a * INR (i - 2 * (w - 1)))))) k n
    (plain (Trix (Z.of_nat w))) (filled (Trix (Z.of_nat w))).
Proof.
  intros w lo hi Hw L H k a. assert (Pos : forall i, (i < n)%nat -> 0 < c i) by (intros i Hi; specialize (H i Hi); lra).
  assert (S0 := span w Hw). fold a in S0. pose proof (fun j => pow_rate w j Hw) as PR. fold a in PR.
  exists (fun i => trix_value w 0 n c i - trix_value w (w - 1) n c i). split.
  - unfold plain, filled. rewrite !trix_formula by auto. opening2. cbn [warm]. unfold gaps. rewrite ltb0.
    replace (i <? (if (w - 1 =? 0)%nat then 0 else w - 1 + (w - 1) + (w - 1) + 1))%nat with false by (symmetry; apply Nat.ltb_ge; destruct (w - 1 =? 0)%nat; unfold k in Hi; lia).
    eexists. split; [reflexivity|]. f_equal. ring.
  - intros i Hi. unfold trix_value, back. rewrite (proj2 (Nat.ltb_ge i 1)) by (unfold k in Hi; lia).
    set (E := (hi - lo) * ((1 - a) ^ (i - k) * (1 + a * INR (i - 2 * (w - 1))))).
    assert (D0 : 0 <= hi - lo) by (specialize (H i ltac:(lia)); lra).
    assert (G : forall t, (i - 1 <= t <= i)%nat -> Rabs (ema3 w 0 c t - ema3 w (w - 1) c t) <= E).
    { intros t Ht. eapply Rle_trans; [apply (ema3_gap w lo hi t Hw H); unfold k in Hi; lia|]. fold a. unfold E. rewrite Rmult_assoc. apply Rmult_le_compat_l; auto.
      assert (0 <= INR (t - (w - 1 + (w - 1)))) by apply pos_INR. assert (0 <= a * INR (t - (w - 1 + (w - 1)))) by (apply Rmult_le_pos; lra).
      apply Rmult_le_compat; [apply PR|lra| |].
      - replace (t - (w - 1 + (w - 1)))%nat with ((t - (w - 1 + (w - 1)) - (i - k)) + (i - k))%nat by (unfold k in *; lia). rewrite pow_add. rewrite <- (Rmult_1_l ((1 - a) ^ (i - k))) at 2. apply Rmult_le_compat_r; apply PR.
      - assert (INR (t - (w - 1 + (w - 1))) <= INR (i - 2 * (w - 1))) by (apply le_INR; lia). assert (a * INR (t - (w - 1 + (w - 1))) <= a * INR (i - 2 * (w - 1))) by (apply Rmult_le_compat_l; lra). lra. }
    assert (R3 : forall k' t, (k' + k' <= t < n)%nat -> lo <= ema3 w k' c t <= hi).
    { intros k' t Ht. unfold ema3. apply ema_bounds; auto. intros t1 Ht1. apply ema_bounds; auto. intros t2 Ht2. apply ema_bounds; auto. intros t3 Ht3. apply H. lia. }
    assert (A := R3 (w - 1)%nat i ltac:(unfold k in Hi; lia)). assert (B := R3 (w - 1)%nat (i - 1)%nat ltac:(unfold k in Hi; lia)). assert (A' := R3 0%nat i ltac:(lia)). assert (B' := R3 0%nat (i - 1)%nat ltac:(lia)).
    eapply Rle_trans; [apply (quot_gap _ _ _ _ lo hi E); auto; try lra; apply G; lia|]. apply Req_le. unfold E, Rsqr. field. lra.
Qed.

(** ** mass index *)
Lemma mass_fill : forall wf ws lo hi, (1 <= wf)%nat -> (1 <= ws)%nat -> 0 < lo -> inside lo hi n (fun i => h i - l i) -> let k := (2 * (wf - 1) + (ws - 1))%nat in
  fades (fun i => INR ws * (hi * (hi - lo) / Rsqr lo * (1 - 2 / (INR wf + 1)) ^ (i - k))) k n
    (plain (Mass (Z.of_nat wf) (Z.of_nat ws))) (filled (Mass (Z.of_nat wf) (Z.of_nat ws))).
Proof.
  intros wf ws lo hi Hf Hs L H k. assert (Pos : forall i, (i < n)%nat -> l i < h i) by (intros i Hi; specialize (H i Hi); cbv beta in H; lra).
  assert (S0 := span wf Hf). pose proof (fun j => pow_rate wf j Hf) as PR. set (q := 1 - 2 / (INR wf + 1)) in *.
  exists (fun i => wsum ws (mass_ratio wf 0 h l) i - wsum ws (mass_ratio wf (wf - 1) h l) i). split.
  - unfold plain, filled. rewrite !mass_formula by auto. opening2. cbn [warm]. unfold from, fromx. rewrite ltb0, (proj2 (Nat.ltb_ge i (wf - 1 + (wf - 1) + (ws - 1)))) by (unfold k in Hi; lia).
    eexists. split; [reflexivity|]. f_equal. ring.
  - intros i Hi. set (e := ema wf (fun i => h i - l i) 0).
    assert (He : forall t, (t < n)%nat -> lo <= e t <= hi) by (intros t Ht; apply ema_bounds; auto; intros; apply H; lia).
    assert (D0 : 0 <= hi - lo) by (specialize (He i ltac:(lia)); lra).
    assert (I : 0 < / lo) by now apply Rinv_0_lt_compat.
    assert (G : forall t, (i - (ws - 1) <= t <= i)%nat -> Rabs (mass_ratio wf 0 h l t - mass_ratio wf (wf - 1) h l t) <= hi * (hi - lo) / Rsqr lo * q ^ (i - k)).
    { intros t Ht. unfold mass_ratio. cbv zeta. fold e. assert (A := ema_bounds wf e 0 t lo hi Hf ltac:(intros; apply He; lia)). assert (B := ema_bounds wf e (wf - 1) t lo hi Hf ltac:(intros; apply He; unfold k in Hi; lia)).
      assert (C := late_seed_abs wf e 0 (wf - 1) t lo hi Hf ltac:(unfold k in Hi; lia) ltac:(intros; apply He; unfold k in Hi; lia)). fold q in C. set (x := ema wf e 0 t) in *. set (y := ema wf e (wf - 1) t) in *.
      replace (e t / x - e t / y) with (e t * (y - x) * (/ x * / y)) by (field; lra). rewrite !Rabs_mult. assert (E0 := He t ltac:(lia)).
      assert (Ix : 0 < / x <= / lo) by (split; [apply Rinv_0_lt_compat; lra|apply Rinv_le_contravar; lra]). assert (Iy : 0 < / y <= / lo) by (split; [apply Rinv_0_lt_compat; lra|apply Rinv_le_contravar; lra]).
      rewrite (Rabs_pos_eq (/ x)), (Rabs_pos_eq (/ y)), (Rabs_pos_eq (e t)), (Rabs_minus_sym y x) by lra.
      assert (C2 : q ^ (t - (wf - 1)) <= q ^ (i - k)).
      { replace (t - (wf - 1))%nat with ((t - (wf - 1) - (i - k)) + (i - k))%nat by (unfold k in *; lia). rewrite pow_add. rewrite <- (Rmult_1_l (q ^ (i - k))) at 2. apply Rmult_le_compat_r; apply PR. }
      assert (C3 : Rabs (x - y) <= q ^ (i - k) * (hi - lo)) by (eapply Rle_trans; [exact C|]; apply Rmult_le_compat_r; lra).
      replace (hi * (hi - lo) / Rsqr lo * q ^ (i - k)) with (hi * (q ^ (i - k) * (hi - lo)) * (/ lo * / lo)) by (unfold Rsqr; field; lra).
      apply Rmult_le_compat; [apply Rmult_le_pos; [lra|apply Rabs_pos]|apply Rmult_le_pos; lra| |apply Rmult_le_compat; lra].
      apply Rmult_le_compat; auto; try apply Rabs_pos; lra. }
    unfold wsum. set (b := hi * (hi - lo) / Rsqr lo * q ^ (i - k)) in *. rewrite wlen_full by (unfold k in Hi; lia).
    assert (Sum : forall m, (m <= ws)%nat -> Rabs (rsum (mass_ratio wf 0 h l) (wlo ws i) m - rsum (mass_ratio wf (wf - 1) h l) (wlo ws i) m) <= INR m * b).
    { induction m; intros Hm; cbn [rsum]. { rewrite Rminus_diag_eq, Rabs_R0 by reflexivity. cbn. lra. }
      specialize (IHm ltac:(lia)). specialize (G (wlo ws i + m)%nat ltac:(unfold wlo; unfold k in Hi; lia)). rewrite S_INR.
      match goal with |- Rabs (?x + ?y - (?x' + ?y')) <= _ => replace (x + y - (x' + y')) with ((x - x') + (y - y')) by ring end. eapply Rle_trans; [apply Rabs_triang|]. lra. }
    apply Sum. lia.
Qed.

(** ** KAMA *)
Lemma kama_sc_filled : forall w p q, (1 <= w <= n)%nat -> (0 <= p)%Z -> (0 <= q)%Z ->
  exists s, kama_sc (tab n (from 0 c)) (Z.of_nat w) p q true = Ok (tab n (from 0 s)) /\
    forall i, (w <= i < n)%nat -> s i = kama_sc_value (2 / IZR (p + 1)) (2 / IZR (q + 1)) (efficiency w c i).
Proof.
  intros w p q Hw Hp Hq.
  assert (P0 : IZR (p + 1) <> 0) by (apply not_0_IZR; lia).
  assert (Q0 : IZR (q + 1) <> 0) by (apply not_0_IZR; lia).
  set (u := fun i => Rabs (c i - (if (i <? 1)%nat then c (i + n - 1)%nat else c (i - 1)%nat))).
  set (m := fun i => Rabs (c i - (if (i <? w)%nat then c (i + n - w)%nat else c (i - w)%nat))).
  set (s := fun i => kama_sc_value (2 / IZR (p + 1)) (2 / IZR (q + 1)) (if Req_EM_T (wsum w u i) 0 then 0 else m i / wsum w u i)).
  exists s. split.
  - unfold kama_sc.
    assert (V : map fabs (ssub (tab n (from 0 c)) (np_roll 1 (tab n (from 0 c)))) = tab n (from 0 u)).
    { change 1%Z with (Z.of_nat 1). rewrite (np_roll_tab 1 n) by lia. unfold ssub. rewrite map2_tab, map_tab. apply tab_ext. intros i Hi.
      unfold from, fromx, u. cbn [Nat.ltb Nat.leb]. destruct i; reflexivity. }
    rewrite V. rewrite sum_tab by lia. cbn [bind warm].
    destruct (Z.eqb_spec p (-1)); [lia|]. destruct (Z.eqb_spec q (-1)); [lia|]. cbn [orb]. f_equal.
    rewrite np_roll_tab by lia. unfold ssub. rewrite map2_tab, map_tab, map2_tab, map_tab. apply tab_ext. intros i Hi.
    unfold from, fromx, s, m. rewrite !ltb0. set (X := if (i <? w)%nat then c (i + n - w)%nat else c (i - w)%nat).
    replace (if (i <? w)%nat then Fin (c (i + n - w)%nat) else Fin (c (i - w)%nat)) with (Fin X) by (unfold X; destruct (i <? w)%nat; reflexivity).
    cbn [fsub fabs fofZ XR]. destruct (Req_EM_T (wsum w u i) 0) as [->|N].
    + cbn. destruct (Req_EM_T 0 0); [|lra]. cbn. destruct (Req_EM_T (IZR (p + 1)) 0); [lra|]. destruct (Req_EM_T (IZR (q + 1)) 0); [lra|]. cbn. unfold kama_sc_value, Rsqr. f_equal; try ring.
    + cbn. destruct (Req_EM_T (wsum w u i) 0); [lra|]. cbn.
      destruct (Req_EM_T (wsum w u i) 0); [lra|].
      destruct (Req_EM_T (IZR (p + 1)) 0); [lra|]. destruct (Req_EM_T (IZR (q + 1)) 0); [lra|].
      cbn. unfold kama_sc_value, Rsqr. f_equal; try ring.
  - intros i Hi. unfold s, m, efficiency.
    assert (E : wsum w u i = rsum (fun j => Rabs (delta c j)) (S i - w) w).
    { unfold wsum. rewrite wlen_full by lia. apply rsum_ext. unfold wlo. intros j Hj. unfold u, delta.
      destruct (Nat.ltb_spec j 1); [lia|]. reflexivity. }
    rewrite E. destruct (Nat.ltb_spec i w); [lia|]. reflexivity.
Qed.
Lemma check_series : forall g s, length s = n -> check_fillna true (FillSeries s) (tab n (from 0 g)) = tab n (from 0 g).
Proof.
  intros g s Hl. unfold tab, from, fromx. rewrite (map_ext _ (fun i => Fin (g i))) by reflexivity. rewrite <- (map_map g Fin).
  assert (L : length s = length (map g (seq 0 n))) by (now rewrite map_length, seq_length). revert L. clear Hl. generalize (map g (seq 0 n)). intros xs L. cbn [check_fillna].
  assert (R : replace_inf (map Fin xs) = map Fin xs) by (unfold replace_inf; rewrite map_map; apply map_ext; reflexivity). rewrite R.
  assert (G : forall a, ffill_go a (map Fin xs) = map Fin xs) by (clear; induction xs as [|x xs IH]; intros a; cbn; [reflexivity|]; now rewrite IH).
  unfold ffill. rewrite G. clear - L. revert s L. induction xs as [|x xs IH]; intros s L; destruct s; try discriminate L; cbn; try reflexivity; f_equal. apply IH. now injection L.
Qed.
Lemma kama_fill : forall w p q, (1 <= w <= n)%nat -> (1 <= p <= q)%Z ->
  exists gap, apart gap (w - 1) n (plain (Kama (Z.of_nat w) p q)) (filled (Kama (Z.of_nat w) p q)) /\
    forall i, (w - 1 <= i)%nat -> (S i < n)%nat -> Rabs (gap (S i)) <= (1 - Rsqr (2 / IZR (q + 1))) * Rabs (gap i) /\ 0 <= gap (S i) * gap i.
Proof.
  intros w p q Hw Hp. destruct (kama_sc_filled w p q Hw ltac:(lia) ltac:(lia)) as (s & E & Hs).
  set (P := 2 / IZR (p + 1)) in *. set (Q := 2 / IZR (q + 1)) in *. set (sc := fun j => kama_sc_value P Q (efficiency w c j)).
  exists (fun i => kama_val s c 0 i - kama_val sc c (w - 1) (i - (w - 1))). split.
  - unfold plain, filled. rewrite kama_formula by lia. fold P Q. fold sc. 
    assert (E2 : compute (Kama (Z.of_nat w) p q) true (frame n h l c v) = Ok (tab n (from 0 (fun i => kama_val s c 0 i)))).
    { cbn [compute]. cols. unfold kama, kama_run. rewrite E. cbn [bind rmap]. f_equal. change (#0)%F with (Fin 0). rewrite kama_run_rows. rewrite check_series by apply len_tab. apply fromx_ext. intros i Hi. now rewrite Nat.sub_0_r. }
    rewrite E2. opening2. unfold from, fromx. rewrite ltb0, (proj2 (Nat.ltb_ge i (w - 1))) by lia. eexists. split; [reflexivity|]. f_equal. ring.
  - intros i Hi Hn. replace (S i - (w - 1))%nat with (S (i - (w - 1))) by lia. cbn [kama_val]. replace (w - 1 + S (i - (w - 1)))%nat with (S i) by lia. cbn [Nat.add].
    rewrite Hs by lia. change (kama_sc_value P Q (efficiency w c (S i))) with (sc (S i)).
    assert (Ip : 2 <= IZR (p + 1)) by (apply (IZR_le 2); lia). assert (Iq : IZR (p + 1) <= IZR (q + 1)) by (apply IZR_le; lia).
    assert (HQ : 0 < Q <= P) by (unfold P, Q; split; [apply Rdiv_lt_0_compat; lra|]; apply Rmult_le_compat_l; [lra|]; apply Rinv_le_contravar; lra).
    assert (HP : P <= 1) by (unfold P; apply Rmult_le_reg_r with (IZR (p + 1)); [lra|]; field_simplify; lra).
    assert (B : Rsqr Q <= sc (S i) <= 1).
    { assert (Er := efficiency_range w c (S i) ltac:(lia)). unfold sc, kama_sc_value. set (e := efficiency _ _ _) in *. assert (A : Q <= e * (P - Q) + Q <= 1).
      { assert (0 <= e * (P - Q)) by (apply Rmult_le_pos; lra). assert (e * (P - Q) <= 1 * (P - Q)) by (apply Rmult_le_compat_r; lra). lra. }
      split; [apply Rsqr_incr_1; lra|]. rewrite <- Rsqr_1. apply Rsqr_incr_1; lra. }
    set (z := sc (S i)) in *. set (x := kama_val s c 0 i). set (y := kama_val sc c (w - 1) (i - (w - 1))).
    replace (x + z * (c (S i) - x) - (y + z * (c (S i) - y))) with ((1 - z) * (x - y)) by ring. split.
    + rewrite Rabs_mult, (Rabs_pos_eq (1 - z)) by lra. apply Rmult_le_compat_r; [apply Rabs_pos|lra].
    + rewrite Rmult_assoc. apply Rmult_le_pos; [lra|]. apply Rle_0_sqr.
Qed.
End Market.
Lemma pvo_fill : forall n h l c v s f g lo hi, (1 <= s)%nat -> (1 <= f)%nat -> (1 <= g)%nat -> (Nat.max f s <= n)%nat -> 0 < lo -> inside lo hi n v ->
  let K := (Nat.max f s - 1)%nat in
  exists d, Rabs d <= 200 * (hi - lo) / lo /\
    apart (fun i => (1 - 2 / (INR g + 1)) ^ (i - K) * d) (K + (g - 1)) n
      (compute (PvoSignal (Z.of_nat s) (Z.of_nat f) (Z.of_nat g)) false (frame n h l c v)) (compute (PvoSignal (Z.of_nat s) (Z.of_nat f) (Z.of_nat g)) true (frame n h l c v)) /\
    apart (fun i => - ((1 - 2 / (INR g + 1)) ^ (i - K) * d)) (K + (g - 1)) n
      (compute (PvoHist (Z.of_nat s) (Z.of_nat f) (Z.of_nat g)) false (frame n h l c v)) (compute (PvoHist (Z.of_nat s) (Z.of_nat f) (Z.of_nat g)) true (frame n h l c v)).
Proof.
  intros n h l c v s f g lo hi Hs Hf Hg Hn L H K.
  destruct (pvo_ppo h l c v h l v n (Z.of_nat s) (Z.of_nat f) (Z.of_nat g) false) as (_ & -> & ->). destruct (pvo_ppo h l c v h l v n (Z.of_nat s) (Z.of_nat f) (Z.of_nat g) true) as (_ & -> & ->).
  now apply ppo_fill.
Qed.
