(** * Robust: lemmas for C87 (errors in the prices) *)
From Coq Require Import Reals Lra.
From Verif Require Import Lists Api SpecNum Tab Averages TrueRange Bands Channels Oscillators Cycles Lines Linear Forget Flows Sar Units SpecRobust.
Local Open Scope R_scope.

Definition cell_near (e : R) (x y : xr) : Prop := match x, y with Fin p, Fin q => Rabs (p - q) <= e | NaN, NaN => True | _, _ => False end.
Lemma near_tab : forall e n (f g : nat -> xr), (forall i, (i < n)%nat -> cell_near e (f i) (g i)) -> near e (Ok (tab n f)) (Ok (tab n g)).
Proof.
  intros e n f g H. do 2 eexists. split; [reflexivity|]. split; [reflexivity|]. change (Forall2 (cell_near e) (tab n f) (tab n g)). unfold tab.
  assert (G : forall i, In i (seq 0 n) -> cell_near e (f i) (g i)) by (intros i Hi; apply in_seq in Hi; apply H; lia).
  induction (seq 0 n); cbn; constructor; auto; [apply G; now left|]. apply IHl. intros. apply G. now right.
Qed.
Lemma near_from : forall e n k f g, (forall i, (k <= i < n)%nat -> Rabs (f i - g i) <= e) -> near e (Ok (tab n (from k f))) (Ok (tab n (from k g))).
Proof. intros. apply near_tab. intros i Hi. unfold from, fromx. destruct (Nat.ltb_spec i k); cbn; auto. Qed.
Lemma near_gaps : forall e fl n k f g, 0 <= e -> (forall i, (k <= i < n)%nat -> Rabs (f i - g i) <= e) -> near e (Ok (tab n (gaps fl 0 k f))) (Ok (tab n (gaps fl 0 k g))).
Proof.
  intros. apply near_tab. intros i Hi. unfold gaps. destruct (Nat.ltb_spec i k), fl; cbn; auto. rewrite Rminus_diag_eq, Rabs_R0 by reflexivity. auto.
Qed.

Section Close.
Variables (n : nat) (e : R).

Lemma wmean_close : forall w f g i, (i < n)%nat -> (1 <= w)%nat -> off_by e n f g -> Rabs (wmean w f i - wmean w g i) <= e.
Proof.
  intros w f g i Hi Hw H. unfold wmean, wsum. pose proof (wlen_pos w i Hw) as P. apply (le_INR 1) in P. cbn in P.
  replace (rsum f (wlo w i) (wlen w i) / INR (wlen w i) - rsum g (wlo w i) (wlen w i) / INR (wlen w i)) with
    ((rsum f (wlo w i) (wlen w i) - rsum g (wlo w i) (wlen w i)) / INR (wlen w i)) by (field; lra).
  unfold Rdiv. rewrite Rabs_mult, (Rabs_pos_eq (/ _)) by (left; apply Rinv_0_lt_compat; lra).
  apply Rmult_le_reg_r with (INR (wlen w i)); [lra|]. rewrite Rmult_assoc, Rinv_l by lra.
  pose proof (rsum_close f g e (wlen w i) (wlo w i)) as G. rewrite Rmult_1_r, (Rmult_comm e). apply G. intros t Ht. apply H. unfold wlo, wlen in Ht. lia.
Qed.
Lemma exp_close_k : forall a f g k j, 0 < a <= 1 -> (k + j < n)%nat -> off_by e n f g -> Rabs (exp_go a f k j - exp_go a g k j) <= e.
Proof.
  intros a f g k j Ha. induction j; intros Hj H; cbn [exp_go]; [apply H; lia|].
  assert (G := IHj ltac:(lia) H). specialize (H (k + S j)%nat ltac:(lia)).
  replace ((1 - a) * exp_go a f k j + a * f (k + S j)%nat - ((1 - a) * exp_go a g k j + a * g (k + S j)%nat))
    with ((1 - a) * (exp_go a f k j - exp_go a g k j) + a * (f (k + S j)%nat - g (k + S j)%nat)) by ring.
  eapply Rle_trans; [apply Rabs_triang|]. rewrite !Rabs_mult, (Rabs_pos_eq a), (Rabs_pos_eq (1 - a)) by lra. nra.
Qed.
Lemma ema_close : forall w f g k i, (1 <= w)%nat -> (k <= i < n)%nat -> off_by e n f g -> Rabs (ema w f k i - ema w g k i) <= e.
Proof. intros w f g k i Hw Hi H. unfold ema, expavg. apply exp_close_k; auto; [now apply span|lia]. Qed.
Lemma wmax_close : forall w f g i, (i < n)%nat -> (1 <= w)%nat -> off_by e n f g -> Rabs (wmax w f i - wmax w g i) <= e.
Proof.
  intros w f g i Hi Hw H. destruct (wmax_att w f i Hw) as (j & Hj & E1). destruct (wmax_att w g i Hw) as (k & Hk & E2).
  pose proof (wmax_ge w g i j Hw Hj). pose proof (wmax_ge w f i k Hw Hk).
  pose proof (H j ltac:(lia)). pose proof (H k ltac:(lia)). unfold Rabs in *; repeat (destruct Rcase_abs); lra.
Qed.
Lemma wmin_close : forall w f g i, (i < n)%nat -> (1 <= w)%nat -> off_by e n f g -> Rabs (wmin w f i - wmin w g i) <= e.
Proof.
  intros w f g i Hi Hw H. destruct (wmin_att w f i Hw) as (j & Hj & E1). destruct (wmin_att w g i Hw) as (k & Hk & E2).
  pose proof (wmin_le w g i j Hw Hj). pose proof (wmin_le w f i k Hw Hk).
  pose proof (H j ltac:(lia)). pose proof (H k ltac:(lia)). unfold Rabs in *; repeat (destruct Rcase_abs); lra.
Qed.
Lemma half_sum : forall x y x' y' , Rabs (x - x') <= e -> Rabs (y - y') <= e -> Rabs ((x + y) / 2 - (x' + y') / 2) <= e.
Proof. intros. unfold Rabs in *; repeat (destruct Rcase_abs); lra. Qed.
Lemma diff2 : forall x y x' y' d d', Rabs (x - x') <= d -> Rabs (y - y') <= d' -> Rabs ((x - y) - (x' - y')) <= d + d'.
Proof. intros. unfold Rabs in *; repeat (destruct Rcase_abs); lra. Qed.
Lemma add2 : forall x y x' y' d d', Rabs (x - x') <= d -> Rabs (y - y') <= d' -> Rabs ((x + y) - (x' + y')) <= d + d'.
Proof. intros. unfold Rabs in *; repeat (destruct Rcase_abs); lra. Qed.
End Close.

(** ** Standard deviation: the triangle inequality *)
Lemma schwarz : forall x y a k, rsum (fun j => x j * y j) a k * rsum (fun j => x j * y j) a k <=
  rsum (fun j => x j * x j) a k * rsum (fun j => y j * y j) a k.
Proof.
  intros x y a k. induction k; [cbn; lra|]. cbn [rsum].
  assert (P : forall z : nat -> R, 0 <= rsum (fun j => z j * z j) a k) by (intros; apply rsum_nonneg; intros; apply Rle_0_sqr).
  pose proof (P x). pose proof (P y). set (S := rsum (fun j => x j * y j) a k) in *. set (X := rsum (fun j => x j * x j) a k) in *. set (Y := rsum (fun j => y j * y j) a k) in *.
  set (u := x (a + k)%nat). set (v := y (a + k)%nat).
  assert (G : 2 * S * (u * v) <= X * (v * v) + Y * (u * u)).
  { destruct (Rle_or_lt (2 * S * (u * v)) (X * (v * v) + Y * (u * u))) as [?|C]; auto. exfalso.
    assert (0 <= X * (v * v)) by (apply Rmult_le_pos; nra). assert (0 <= Y * (u * u)) by (apply Rmult_le_pos; nra).
    assert (Q : (X * (v * v) + Y * (u * u)) * (X * (v * v) + Y * (u * u)) < (2 * S * (u * v)) * (2 * S * (u * v))) by (apply Rmult_le_0_lt_compat; lra).
    assert (D : 0 <= (X * (v * v) - Y * (u * u)) * (X * (v * v) - Y * (u * u))) by apply Rle_0_sqr.
    assert (E : 4 * (S * S) * ((u * u) * (v * v)) <= 4 * (X * Y) * ((u * u) * (v * v))) by (apply Rmult_le_compat_r; [apply Rmult_le_pos; nra|lra]).
    replace ((2 * S * (u * v)) * (2 * S * (u * v))) with (4 * (S * S) * ((u * u) * (v * v))) in Q by ring.
    replace ((X * (v * v) + Y * (u * u)) * (X * (v * v) + Y * (u * u))) with
      ((X * (v * v) - Y * (u * u)) * (X * (v * v) - Y * (u * u)) + 4 * (X * Y) * ((u * u) * (v * v))) in Q by ring. lra. }
  nra.
Qed.
Lemma wmean_le : forall w f g i, (1 <= w)%nat -> (forall j, (j <= i)%nat -> f j <= g j) -> wmean w f i <= wmean w g i.
Proof. intros w f g i Hw H. apply (wmean_mono (S i)); auto. intros. apply H. lia. Qed.
Lemma schwarz_mean : forall w x y i, (1 <= w)%nat ->
  wmean w (fun j => x j * y j) i * wmean w (fun j => x j * y j) i <= wmean w (fun j => x j * x j) i * wmean w (fun j => y j * y j) i.
Proof.
  intros w x y i Hw. unfold wmean, wsum. pose proof (wlen_pos w i Hw) as P. apply (le_INR 1) in P. cbn in P.
  pose proof (schwarz x y (wlo w i) (wlen w i)) as G. set (N := INR (wlen w i)) in *. unfold Rdiv.
  assert (Q : 0 <= / N * / N) by (assert (0 < / N) by (apply Rinv_0_lt_compat; lra); nra).
  apply (Rmult_le_compat_r (/ N * / N)) in G; auto.
  match goal with |- ?a * / N * (?a * / N) <= ?b * / N * (?d * / N) => replace (a * / N * (a * / N)) with (a * a * (/ N * / N)) by ring;
    replace (b * / N * (d * / N)) with (b * d * (/ N * / N)) by ring end. exact G.
Qed.
Lemma wstd_half : forall e w f g i, (1 <= w)%nat -> 0 <= e -> off_by e (S i) f g -> wstd w f i <= wstd w g i + e.
Proof.
  intros e w f g i Hw He H. unfold wstd. set (mf := wmean w f i). set (mg := wmean w g i).
  set (b := fun j => g j - mg). set (d := fun j => (f j - g j) - (mf - mg)).
  set (A := wmean w (fun j => (f j - mf) * (f j - mf)) i). set (B := wmean w (fun j => (g j - mg) * (g j - mg)) i).
  assert (HB : 0 <= B) by (apply wmean_nonneg; auto; intros; apply Rle_0_sqr).
  assert (EA : A = B + 2 * wmean w (fun j => b j * d j) i + wmean w (fun j => d j * d j) i).
  { unfold A, B. transitivity (wmean w (fun j => 1 * ((g j - mg) * (g j - mg)) + 1 * (2 * (b j * d j) + 1 * (d j * d j))) i).
    - apply Channels.wmean_ext. intros. unfold b, d. ring.
    - rewrite wmean_lin by auto. rewrite (wmean_lin w 2 1) by auto. ring. }
  assert (ED : wmean w (fun j => d j * d j) i <= e * e).
  { apply Rle_trans with (wmean w (fun j => (f j - g j) * (f j - g j)) i).
    - assert (M : wmean w (fun j => f j - g j) i = mf - mg).
      { unfold mf, mg. replace (wmean w f i - wmean w g i) with (1 * wmean w f i + (-1) * wmean w g i) by ring. rewrite <- wmean_lin by auto.
        apply Channels.wmean_ext. intros. ring. }
      assert (X : wmean w (fun j => d j * d j) i = wmean w (fun j => (f j - g j) * (f j - g j)) i - (mf - mg) * (mf - mg)).
      { transitivity (wmean w (fun j => 1 * ((f j - g j) * (f j - g j)) + 1 * ((-2 * (mf - mg)) * (f j - g j) + ((mf - mg) * (mf - mg)) * 1)) i).
        - apply Channels.wmean_ext. intros. unfold d. ring.
        - rewrite wmean_lin by auto. rewrite (wmean_lin w (-2 * (mf - mg)) ((mf - mg) * (mf - mg)) (fun j => f j - g j) (fun _ => 1)) by auto.
          rewrite M, (wmean_const w (fun _ => 1) i 1) by auto. ring. }
      rewrite X. pose proof (Rle_0_sqr (mf - mg)) as Q. unfold Rsqr in Q. lra.
    - rewrite <- (wmean_const w (fun _ => e * e) i (e * e)) by auto. apply wmean_le; auto. intros j Hj.
      specialize (H j ltac:(lia)). unfold Rabs in H. destruct Rcase_abs in H; nra. }
  assert (S0 : 0 <= sqrt B) by apply sqrt_pos. assert (SS : sqrt B * sqrt B = B) by now apply sqrt_sqrt.
  assert (C : wmean w (fun j => b j * d j) i <= sqrt B * e).
  { pose proof (schwarz_mean w b d i Hw) as G. set (T := wmean w (fun j => b j * d j) i) in *. fold b in B.
    change (wmean w (fun j => b j * b j) i) with B in G.
    destruct (Rle_or_lt T (sqrt B * e)) as [?|Q]; auto. exfalso.
    assert (0 <= sqrt B * e) by nra.
    assert (R1 : (sqrt B * e) * (sqrt B * e) < T * T) by (apply Rmult_le_0_lt_compat; lra).
    assert (R2 : B * wmean w (fun j => d j * d j) i <= B * (e * e)) by (apply Rmult_le_compat_l; auto). nra. }
  assert (HA : 0 <= A) by (apply wmean_nonneg; auto; intros; apply Rle_0_sqr).
  apply Rsqr_incr_0_var; [|lra]. unfold Rsqr. rewrite sqrt_sqrt by auto. nra.
Qed.
Lemma wstd_close : forall e n w f g i, (1 <= w)%nat -> (i < n)%nat -> off_by e n f g -> Rabs (wstd w f i - wstd w g i) <= e.
Proof.
  intros e n w f g i Hw Hi H. assert (He : 0 <= e) by (eapply Rle_trans; [apply Rabs_pos|apply (H i Hi)]).
  assert (G : off_by e (S i) f g) by (intros j Hj; apply H; lia).
  assert (G' : off_by e (S i) g f) by (intros j Hj; rewrite Rabs_minus_sym; apply H; lia).
  pose proof (wstd_half e w f g i Hw He G). pose proof (wstd_half e w g f i Hw He G'). apply Rabs_le. lra.
Qed.

Section Robust.
Variables (n : nat) (h l c v h' l' c' v' : nat -> R) (fl : bool) (e : R).
Hypotheses (He : 0 <= e) (Hh : off_by e n h h') (Hl : off_by e n l l') (Hc : off_by e n c c').
Notation F1 := (frame n h l c v).
Notation F2 := (frame n h' l' c' v').

Lemma typical_close : off_by e n (typical h l c) (typical h' l' c').
Proof.
  intros i Hi. unfold typical. specialize (Hh i Hi). specialize (Hl i Hi). specialize (Hc i Hi).
  unfold Rabs in *; repeat (destruct Rcase_abs); lra.
Qed.
Lemma mid_close : off_by e n (fun i => (h i + l i) / 2) (fun i => (h' i + l' i) / 2).
Proof. intros i Hi. apply half_sum; auto. Qed.
Lemma midrange_close : forall w i, (i < n)%nat -> (1 <= w)%nat -> Rabs (midrange w h l i - midrange w h' l' i) <= e.
Proof.
  intros w i Hi Hw. unfold midrange. pose proof (wmax_close n e w h h' i Hi Hw Hh). pose proof (wmin_close n e w l l' i Hi Hw Hl). now apply half_sum.
Qed.
Lemma scaled_close : forall k x y d, Rabs (x - y) <= d -> Rabs (k * x - k * y) <= Rabs k * d.
Proof. intros. rewrite <- Rmult_minus_distr_l, Rabs_mult. apply Rmult_le_compat_l; auto. apply Rabs_pos. Qed.
Lemma kc_close : forall w i s, (1 <= w)%nat -> (i < n)%nat -> (s = 1 \/ s = -1) ->
  Rabs (wmean w (typical h l c) i + s * wmean w (fun i => h i - l i) i - (wmean w (typical h' l' c') i + s * wmean w (fun i => h' i - l' i) i)) <= e * (7 / 3).
Proof.
  intros w i s Hw Hi Hs.
  assert (X : forall h l c, wmean w (typical h l c) i + s * wmean w (fun i => h i - l i) i = wmean w (fun j => typical h l c j + s * (h j - l j)) i).
  { intros a b d. rewrite <- (Rmult_1_l (wmean w (typical a b d) i)), <- wmean_lin by auto. apply Channels.wmean_ext. intros. ring. }
  rewrite !X. apply (wmean_close n); auto. intros j Hj. unfold typical. specialize (Hh j Hj). specialize (Hl j Hj). specialize (Hc j Hj).
  destruct Hs as [-> | ->]; unfold Rabs in *; repeat (destruct Rcase_abs); lra.
Qed.
Lemma macd_close : forall s f, (1 <= s)%nat -> (1 <= f)%nat ->
  off_by (2 * e) n (fun i => ema f c 0 i - ema s c 0 i) (fun i => ema f c' 0 i - ema s c' 0 i).
Proof.
  intros s f Hs Hf i Hi. replace (2 * e) with (e + e) by ring. apply diff2; apply (ema_close n); auto; lia.
Qed.
Lemma robust : forall ind g, gain ind = Some g -> near (g * e) (compute ind fl F1) (compute ind fl F2).
Proof.
  assert (P : forall w, (1 <=? w)%Z = true -> exists k, w = Z.of_nat k /\ (1 <= k)%nat).
  { intros w H. apply Z.leb_le in H. exists (Z.to_nat w). lia. }
  intros ind g H. destruct ind; try discriminate; cbn [gain] in H;
    repeat match goal with
    | H : match ?x with _ => _ end = Some _ |- _ => let E := fresh "E" in destruct x eqn:E; try discriminate
    end;
    repeat match goal with H : Some _ = Some _ |- _ => injection H as <- end;
    repeat match goal with H : (_ && _)%bool = true |- _ => apply andb_prop in H as [? ?] end;
    repeat match goal with
    | H : (1 <=? ?w)%Z = true |- _ => destruct (P w H) as (? & -> & ?); clear H
    end; subst; rewrite ?Rmult_1_l.
  - (* ao *) rewrite !ao_formula by auto. apply near_from. intros i Hi. replace (2 * e) with (e + e) by ring.
    apply diff2; apply (wmean_close n); auto using mid_close; lia.
  - destruct (macd_formula fl x1 x0 x n h l c v) as (E1 & _); auto. destruct (macd_formula fl x1 x0 x n h' l' c' v') as (E2 & _); auto.
    rewrite E1, E2. apply near_gaps; [lra|]. intros. apply macd_close; auto; lia.
  - destruct (macd_formula fl x1 x0 x n h l c v) as (_ & E1 & _); auto. destruct (macd_formula fl x1 x0 x n h' l' c' v') as (_ & E2 & _); auto.
    rewrite E1, E2. apply near_gaps; [lra|]. intros. apply (ema_close n); auto; [lia|]. now apply macd_close.
  - destruct (macd_formula fl x1 x0 x n h l c v) as (_ & _ & E1); auto. destruct (macd_formula fl x1 x0 x n h' l' c' v') as (_ & _ & E2); auto.
    rewrite E1, E2. apply near_gaps; [lra|]. intros. replace (4 * e) with (2 * e + 2 * e) by ring. apply diff2.
    + apply macd_close; auto; lia.
    + apply (ema_close n); auto; [lia|]. now apply macd_close.
  - rewrite !ema_formula by auto. apply near_from. intros. apply (ema_close n); auto. lia.
  - rewrite !sma_formula by auto. apply near_from. intros. apply (wmean_close n); auto; lia.
  - rewrite !wma_formula by auto. apply near_gaps; auto. intros i Hi. unfold wma_value.
    set (W := INR x * (INR x + 1) / 2). assert (W0 : 0 < W).
    { unfold W. match goal with H : (1 <= x)%nat |- _ => apply (le_INR 1) in H; cbn in H end. nra. }
    set (f := fun j => INR (S j) * c (S i - x + j)%nat). set (g := fun j => INR (S j) * c' (S i - x + j)%nat).
    replace (rsum f 0 x / W - rsum g 0 x / W) with ((rsum f 0 x - rsum g 0 x) / W) by (field; lra).
    assert (U : forall k, (k <= x)%nat -> Rabs (rsum f 0 k - rsum g 0 k) <= e * rsum (fun j => INR (S j)) 0 k).
    { induction k; intros Hk; cbn [rsum]; [rewrite Rminus_diag_eq, Rabs_R0 by reflexivity; lra|].
      specialize (IHk ltac:(lia)). cbn [Nat.add]. unfold f at 2, g at 2.
      replace (rsum f 0 k + INR (S k) * c (S i - x + k)%nat - (rsum g 0 k + INR (S k) * c' (S i - x + k)%nat)) with
        ((rsum f 0 k - rsum g 0 k) + INR (S k) * (c (S i - x + k)%nat - c' (S i - x + k)%nat)) by ring.
      eapply Rle_trans; [apply Rabs_triang|]. rewrite Rabs_mult, (Rabs_pos_eq (INR (S k))) by apply pos_INR.
      pose proof (Hc (S i - x + k)%nat ltac:(lia)). pose proof (pos_INR (S k)). nra. }
    specialize (U x ltac:(lia)). rewrite Units.rsum_S in U. fold W in U.
    unfold Rdiv. rewrite Rabs_mult, (Rabs_pos_eq (/ W)) by (left; apply Rinv_0_lt_compat; lra).
    apply Rmult_le_reg_r with W; [lra|]. rewrite Rmult_assoc, Rinv_l by lra. lra.
  - destruct (ichi_formula fl x1 x0 x visual n h l c v) as (E1 & _); auto. destruct (ichi_formula fl x1 x0 x visual n h' l' c' v') as (E2 & _); auto.
    rewrite E1, E2. apply near_from. intros. apply midrange_close; auto; lia.
  - destruct (ichi_formula fl x1 x0 x visual n h l c v) as (_ & E1 & _); auto. destruct (ichi_formula fl x1 x0 x visual n h' l' c' v') as (_ & E2 & _); auto.
    rewrite E1, E2. apply near_from. intros. apply midrange_close; auto; lia.
  - destruct (ichi_formula fl x1 x0 x false n h l c v) as (_ & _ & E1 & _); auto. destruct (ichi_formula fl x1 x0 x false n h' l' c' v') as (_ & _ & E2 & _); auto.
    rewrite E1, E2. apply near_from. intros i Hi.
    pose proof (midrange_close x1 i ltac:(lia) ltac:(auto)). pose proof (midrange_close x0 i ltac:(lia) ltac:(auto)).
    unfold Rabs in *; repeat (destruct Rcase_abs); lra.
  - destruct (ichi_formula fl x1 x0 x false n h l c v) as (_ & _ & _ & E1); auto. destruct (ichi_formula fl x1 x0 x false n h' l' c' v') as (_ & _ & _ & E2); auto.
    rewrite E1, E2. apply near_from. intros. apply midrange_close; auto; lia.
  - rewrite !dpo_formula by auto. apply near_from. intros i Hi. replace (2 * e) with (e + e) by ring. apply diff2; [|apply (wmean_close n); auto; lia].
    unfold back. destruct (Nat.ltb_spec i (S (x / 2))); [|apply Hc; lia]. unfold mean_of. rewrite Nat.sub_0_r.
    assert (N : 1 <= INR n) by (apply (le_INR 1); lia).
    replace (rsum c 0 n / INR n - rsum c' 0 n / INR n) with ((rsum c 0 n - rsum c' 0 n) / INR n) by (field; lra).
    unfold Rdiv. rewrite Rabs_mult, (Rabs_pos_eq (/ INR n)) by (left; apply Rinv_0_lt_compat; lra).
    apply Rmult_le_reg_r with (INR n); [lra|]. rewrite Rmult_assoc, Rinv_l by lra.
    pose proof (rsum_close c c' e n 0 ltac:(intros; apply Hc; lia)). lra.
  - destruct (bb_formula fl x r n h l c v) as (E1 & _); auto. destruct (bb_formula fl x r n h' l' c' v') as (E2 & _); auto.
    rewrite E1, E2. apply near_from. intros. apply (wmean_close n); auto; lia.
  - destruct (bb_formula fl x r n h l c v) as (_ & E1 & _); auto. destruct (bb_formula fl x r n h' l' c' v') as (_ & E2 & _); auto.
    rewrite E1, E2. apply near_from. intros. replace ((1 + Rabs r) * e) with (e + Rabs r * e) by ring.
    apply add2; [apply (wmean_close n); auto; lia|]. apply scaled_close. apply (wstd_close e n); auto; lia.
  - destruct (bb_formula fl x r n h l c v) as (_ & _ & E1); auto. destruct (bb_formula fl x r n h' l' c' v') as (_ & _ & E2); auto.
    rewrite E1, E2. apply near_from. intros. replace ((1 + Rabs r) * e) with (e + Rabs r * e) by ring.
    apply diff2; [apply (wmean_close n); auto; lia|]. apply scaled_close. apply (wstd_close e n); auto; lia.
  - destruct (kc_bands_original fl x window_atr multiplier n h l c v) as (E1 & _); auto.
    destruct (kc_bands_original fl x window_atr multiplier n h' l' c' v') as (E2 & _); auto.
    rewrite E1, E2. apply near_from. intros. apply (wmean_close n); auto using typical_close; lia.
  - destruct (kc_bands_original fl x window_atr multiplier n h l c v) as (_ & E1 & _); auto.
    destruct (kc_bands_original fl x window_atr multiplier n h' l' c' v') as (_ & E2 & _); auto.
    rewrite E1, E2. apply near_from. intros. pose proof (kc_close x i 1 ltac:(auto) ltac:(lia) (or_introl eq_refl)) as K. rewrite !Rmult_1_l in K. lra.
  - destruct (kc_bands_original fl x window_atr multiplier n h l c v) as (_ & _ & E1 & _); auto.
    destruct (kc_bands_original fl x window_atr multiplier n h' l' c' v') as (_ & _ & E2 & _); auto.
    rewrite E1, E2. apply near_from. intros. pose proof (kc_close x i (-1) ltac:(auto) ltac:(lia) (or_intror eq_refl)) as K.
    match goal with |- Rabs (?a - ?b - (?p - ?q)) <= _ => replace (a - b - (p - q)) with (a + -1 * b - (p + -1 * q)) by ring end. lra.
  - destruct (dc_bands fl x n h l c v) as (E1 & _); auto. destruct (dc_bands fl x n h' l' c' v') as (E2 & _); auto.
    rewrite E1, E2. apply near_from. intros. apply (wmax_close n); auto; lia.
  - destruct (dc_bands fl x n h l c v) as (_ & E1 & _); auto. destruct (dc_bands fl x n h' l' c' v') as (_ & E2 & _); auto.
    rewrite E1, E2. apply near_from. intros. apply (wmin_close n); auto; lia.
  - destruct (dc_bands fl x n h l c v) as (_ & _ & E1); auto. destruct (dc_bands fl x n h' l' c' v') as (_ & _ & E2); auto.
    rewrite E1, E2. apply near_from. intros. now apply midrange_close; auto; lia.
Qed.
Lemma atr_value_close : forall w i, (1 <= w)%nat -> (i < n)%nat ->
  Rabs (atr_value w (trange h l c) i - atr_value w (trange h' l' c') i) <= 2 * e.
Proof.
  intros w i Hw Hi. unfold atr_value. destruct (Nat.ltb_spec i (w - 1)); [rewrite Rminus_diag_eq, Rabs_R0 by reflexivity; lra|].
  apply atr_close; auto. intros t Ht. apply trange_close. intros j Hj. repeat split; [apply Hh|apply Hl|apply Hc]; lia.
Qed.
Lemma atr_robust : forall w, (1 <= w <= n)%nat -> near (2 * e) (compute (Atr (Z.of_nat w)) fl F1) (compute (Atr (Z.of_nat w)) fl F2).
Proof. intros w Hw. rewrite !atr_formula by lia. apply near_from. intros. apply atr_value_close; lia. Qed.
Lemma keltner_robust : forall w a m, (1 <= w)%nat -> (1 <= a <= n)%nat ->
  let call ind rows := compute (ind (Z.of_nat w) (Z.of_nat a) false (Fin m)) fl rows in
  near e (call KcM F1) (call KcM F2) /\ near ((1 + 2 * Rabs m) * e) (call KcH F1) (call KcH F2) /\
  near ((1 + 2 * Rabs m) * e) (call KcL F1) (call KcL F2).
Proof.
  intros w a m Hw Ha call. unfold call.
  destruct (kc_bands_ema fl w a m n h l c v) as (E1 & E2 & E3 & _); auto. destruct (kc_bands_ema fl w a m n h' l' c' v') as (E1' & E2' & E3' & _); auto.
  rewrite E1, E2, E3, E1', E2', E3'. replace ((1 + 2 * Rabs m) * e) with (e + Rabs m * (2 * e)) by ring.
  split; [|split]; apply near_from; intros i Hi.
  - apply (ema_close n); auto; lia.
  - apply add2; [apply (ema_close n); auto; lia|]. apply scaled_close, atr_value_close; lia.
  - apply diff2; [apply (ema_close n); auto; lia|]. apply scaled_close, atr_value_close; lia.
Qed.
Lemma vwap_robust : forall w out out' i, (1 <= w)%nat -> (forall j, (j < n)%nat -> 0 <= v j) ->
  compute (Vwap (Z.of_nat w)) fl F1 = Ok out -> compute (Vwap (Z.of_nat w)) fl (frame n h' l' c' v) = Ok out' ->
  (warm fl w <= i < n)%nat -> wsum w v i <> 0 ->
  exists x x', nth i out NaN = Fin x /\ nth i out' NaN = Fin x' /\ Rabs (x - x') <= e.
Proof.
  intros w out out' i Hw HV E E' Hi N. eexists. eexists. split; [|split].
  - eapply shows_row; [apply (vwap_formula fl w n h l c v Hw)|exact E|lia|]. unfold fromx.
    destruct (Nat.ltb_spec i (warm fl w)); [lia|]. now apply ratio_fin.
  - eapply shows_row; [apply (vwap_formula fl w n h' l' c' v Hw)|exact E'|lia|]. unfold fromx.
    destruct (Nat.ltb_spec i (warm fl w)); [lia|]. now apply ratio_fin.
  - assert (P : 0 < wsum w v i).
    { assert (0 <= wsum w v i); [|lra]. apply rsum_nonneg. intros. apply HV. unfold wlo, wlen in *. lia. }
    unfold wsum in *. set (V := rsum v (wlo w i) (wlen w i)) in *.
    set (f := fun j => typical h l c j * v j). set (g := fun j => typical h' l' c' j * v j).
    assert (U : forall k, (wlo w i + k <= n)%nat -> Rabs (rsum f (wlo w i) k - rsum g (wlo w i) k) <= e * rsum v (wlo w i) k).
    { induction k; intros Hk; cbn [rsum]; [rewrite Rminus_diag_eq, Rabs_R0 by reflexivity; lra|].
      specialize (IHk ltac:(lia)). unfold f at 2, g at 2. set (t := (wlo w i + k)%nat) in *.
      replace (rsum f (wlo w i) k + typical h l c t * v t - (rsum g (wlo w i) k + typical h' l' c' t * v t)) with
        ((rsum f (wlo w i) k - rsum g (wlo w i) k) + (typical h l c t - typical h' l' c' t) * v t) by ring.
      eapply Rle_trans; [apply Rabs_triang|]. pose proof (HV t ltac:(lia)). rewrite Rabs_mult, (Rabs_pos_eq (v t)) by auto.
      pose proof (typical_close t ltac:(lia)). nra. }
    specialize (U (wlen w i) ltac:(unfold wlo, wlen; lia)). fold V in U.
    replace (rsum f (wlo w i) (wlen w i) / V - rsum g (wlo w i) (wlen w i) / V) with ((rsum f (wlo w i) (wlen w i) - rsum g (wlo w i) (wlen w i)) / V) by (field; lra).
    unfold Rdiv. rewrite Rabs_mult, (Rabs_pos_eq (/ V)) by (left; apply Rinv_0_lt_compat; lra).
    apply Rmult_le_reg_r with V; [lra|]. rewrite Rmult_assoc, Rinv_l by lra. lra.
Qed.
End Robust.

(** ** PSAR jumps *)
Lemma psar_jumps : forall b e, 0 < e -> exists h l c v l', off_by e 3 l l' /\
  forall out out', compute (Psar b (Fin (1 / 50)) (Fin (1 / 5))) false (frame 3 h l c v) = Ok out ->
    compute (Psar b (Fin (1 / 50)) (Fin (1 / 5))) false (frame 3 h l' c v) = Ok out' ->
    exists x x', nth 2 out NaN = Fin x /\ nth 2 out' NaN = Fin x' /\ Rabs (x - x') >= 49.
Proof.
  intros b e He.
  exists (fun _ => 50), (fun i => 1), (fun _ => 0), (fun _ => 0), (fun i => if Nat.eqb i 2 then 1 - e else 1). split.
  { intros i Hi. destruct (Nat.eqb i 2); apply Rabs_le; lra. }
  intros out out' E E'. destruct (psar_formula b (1 / 50) (1 / 5) 3 (fun _ => 50) (fun _ => 1) (fun _ => 0) (fun _ => 0) ltac:(lia)) as (P & _).
  destruct (psar_formula b (1 / 50) (1 / 5) 3 (fun _ => 50) (fun i => if Nat.eqb i 2 then 1 - e else 1) (fun _ => 0) (fun _ => 0) ltac:(lia)) as (P' & _).
  rewrite P in E. rewrite P' in E'. injection E as <-. injection E' as <-. do 2 eexists. split; [reflexivity|]. split; [reflexivity|].
  cbn [sar_at]. unfold sar_next, sar_move. cbn [sar_up sar_val sar_af sar_high Nat.eqb Nat.sub].
  destruct (Rlt_dec 1 (0 + 1 / 50 * (50 - 0))) as [A|A]; [lra|]. destruct (Rlt_dec (1 - e) (0 + 1 / 50 * (50 - 0))) as [B|B]; [|lra].
  cbn [sar_val]. rewrite Rmin_left by lra. unfold Rabs. destruct Rcase_abs; lra.
Qed.
