(** * OneWay: the series in a market that never turns (C92). *)
From Coq Require Import Lra.
From Verif Require Import Lists Api SpecNum SpecOneWay Rows Fill Tab Averages Halt Steady
  Oscillators Returns Lines Trend Directional Cycles Bands Channels Flows Momentum Kama.
Local Open Scope R_scope.

Lemma nat_of : forall w, (0 <= w)%Z -> exists k, w = Z.of_nat k.
Proof. intros w H. exists (Z.to_nat w). lia. Qed.
Lemma far : forall s n f i j, one_way s n f -> (j <= i < n)%nat -> 0 <= s * (f i - f j).
Proof.
  intros s n f i j H. induction i; intros Hi.
  - replace j with 0%nat by lia. replace (f 0%nat - f 0%nat) with 0 by ring. lra.
  - destruct (Nat.eq_dec j (S i)) as [->|]; [replace (f (S i) - f (S i)) with 0 by ring; lra|].
    specialize (IHi ltac:(lia)). specialize (H i ltac:(lia)). replace (s * (f (S i) - f j)) with (s * (f (S i) - f i) + s * (f i - f j)) by ring. lra.
Qed.
Lemma one_way_scale : forall s n f, one_way s n f <-> one_way 1 n (fun j => s * f j).
Proof. intros. split; intros H j Hj; specialize (H j Hj); lra. Qed.

(** ** exponential averages *)
Section Exp.
Variables (s : R) (n : nat) (f : nat -> R) (k : nat).
Hypothesis W : forall j, (k <= j)%nat -> (S j < n)%nat -> 0 <= s * (f (S j) - f j).
Lemma exp_behind : forall a j, 0 < a <= 1 -> (k + j < n)%nat -> 0 <= s * (f (k + j)%nat - exp_go a f k j).
Proof.
  intros a j A. induction j; intros Hj; cbn [exp_go].
  - rewrite Nat.add_0_r. replace (f k - f k) with 0 by ring. lra.
  - specialize (IHj ltac:(lia)). pose proof (W (k + j)%nat ltac:(lia) ltac:(lia)) as V. replace (k + S j)%nat with (S (k + j)) by lia.
    replace (s * (f (S (k + j)) - ((1 - a) * exp_go a f k j + a * f (S (k + j))))) with
      ((1 - a) * (s * (f (S (k + j)) - f (k + j)%nat) + s * (f (k + j)%nat - exp_go a f k j))) by ring.
    apply Rmult_le_pos; lra.
Qed.
Lemma exp_moves : forall a j, 0 < a <= 1 -> (k + S j < n)%nat -> 0 <= s * (exp_go a f k (S j) - exp_go a f k j).
Proof.
  intros a j A Hj. pose proof (exp_behind a j A ltac:(lia)). pose proof (W (k + j)%nat ltac:(lia) ltac:(lia)) as V. cbn [exp_go].
  replace (k + S j)%nat with (S (k + j)) by lia.
  replace (s * ((1 - a) * exp_go a f k j + a * f (S (k + j)) - exp_go a f k j)) with
    (a * (s * (f (S (k + j)) - f (k + j)%nat) + s * (f (k + j)%nat - exp_go a f k j))) by ring.
  apply Rmult_le_pos; lra.
Qed.
Lemma exp_leads : forall a b j, 0 < b <= a -> a <= 1 -> (k + j < n)%nat -> 0 <= s * (exp_go a f k j - exp_go b f k j).
Proof.
  intros a b j B A. induction j; intros Hj; cbn [exp_go].
  - replace (f k - f k) with 0 by ring. lra.
  - specialize (IHj ltac:(lia)). pose proof (exp_behind a j ltac:(lra) ltac:(lia)) as E.
    pose proof (W (k + j)%nat ltac:(lia) ltac:(lia)) as V. replace (k + S j)%nat with (S (k + j)) by lia.
    replace (s * ((1 - a) * exp_go a f k j + a * f (S (k + j)) - ((1 - b) * exp_go b f k j + b * f (S (k + j))))) with
      ((1 - b) * (s * (exp_go a f k j - exp_go b f k j)) + (a - b) * (s * (f (S (k + j)) - f (k + j)%nat) + s * (f (k + j)%nat - exp_go a f k j))) by ring.
    apply Rplus_le_le_0_compat; apply Rmult_le_pos; lra.
Qed.
End Exp.
Lemma exp_sign : forall s a f k j, 0 < a <= 1 -> (forall t, (k <= t <= k + j)%nat -> 0 <= s * f t) -> 0 <= s * exp_go a f k j.
Proof.
  intros s a f k j A. induction j; intros H; cbn [exp_go]; [apply H; lia|].
  pose proof (IHj ltac:(intros; apply H; lia)). pose proof (H (k + S j)%nat ltac:(lia)).
  replace (s * ((1 - a) * exp_go a f k j + a * f (k + S j)%nat)) with ((1 - a) * (s * exp_go a f k j) + a * (s * f (k + S j)%nat)) by ring.
  apply Rplus_le_le_0_compat; apply Rmult_le_pos; lra.
Qed.
Lemma exp_pos : forall a f k j, 0 < a <= 1 -> (forall t, (k <= t <= k + j)%nat -> 0 < f t) -> 0 < exp_go a f k j.
Proof.
  intros a f k j A. induction j; intros H; cbn [exp_go]; [apply H; lia|].
  pose proof (IHj ltac:(intros; apply H; lia)). pose proof (H (k + S j)%nat ltac:(lia)).
  assert (0 < a * f (k + S j)%nat) by (apply Rmult_lt_0_compat; lra). assert (0 <= (1 - a) * exp_go a f k j) by (apply Rmult_le_pos; lra). lra.
Qed.
Lemma span_unit : forall w, (1 <= w)%nat -> 0 < 2 / (INR w + 1) <= 1.
Proof.
  intros w Hw. assert (1 <= INR w) by (change 1 with (INR 1); now apply le_INR). split; [apply Rdiv_lt_0_compat; lra|].
  apply Rmult_le_reg_r with (INR w + 1); [lra|]. unfold Rdiv. rewrite Rmult_assoc, Rinv_l by lra. lra.
Qed.
Lemma span_le : forall w w', (1 <= w <= w')%nat -> 0 < 2 / (INR w' + 1) <= 2 / (INR w + 1).
Proof.
  intros w w' H. split; [apply span_unit; lia|]. destruct H as [H1 H2]. apply le_INR in H1, H2. change (INR 1) with 1 in H1.
  unfold Rdiv. apply Rmult_le_compat_l; [lra|]. apply Rinv_le_contravar; lra.
Qed.
Lemma ema_leads : forall s n c w w' i, one_way s n c -> (1 <= w <= w')%nat -> (i < n)%nat -> 0 <= s * (ema w c 0 i - ema w' c 0 i).
Proof.
  intros s n c w w' i H Hw Hi. unfold ema, expavg. rewrite Nat.sub_0_r. pose proof (span_le w w' Hw). pose proof (span_unit w ltac:(lia)).
  apply (exp_leads s n c 0); auto; lra.
Qed.
Lemma ema_above : forall n c w i, all_positive n c -> (1 <= w)%nat -> (i < n)%nat -> 0 < ema w c 0 i.
Proof. intros n c w i P Hw Hi. unfold ema, expavg. apply exp_pos; [now apply span_unit|]. intros. apply P. lia. Qed.

(** ** window means *)
Lemma rsum_first : forall f a k, rsum f a (S k) = f a + rsum f (S a) k.
Proof. intros f a. induction k; [cbn [rsum]; rewrite Nat.add_0_r; ring|]. change (rsum f a (S (S k))) with (rsum f a (S k) + f (a + S k)%nat). rewrite IHk. cbn [rsum]. replace (S a + k)%nat with (a + S k)%nat by lia. ring. Qed.
Lemma rsum_sign : forall s f a k, (forall j, (a <= j < a + k)%nat -> 0 <= s * f j) -> 0 <= s * rsum f a k.
Proof.
  intros s f a k H. induction k; cbn [rsum]; [lra|]. pose proof (IHk ltac:(intros; apply H; lia)). pose proof (H (a + k)%nat ltac:(lia)). lra.
Qed.
Lemma rsum_minus_const : forall x f a k, rsum (fun j => x - f j) a k = INR k * x - rsum f a k.
Proof. intros x f a. induction k; [cbn; ring|]. cbn [rsum]. rewrite IHk, S_INR. ring. Qed.
Lemma wlen_INR : forall w i, (1 <= w)%nat -> 0 < INR (wlen w i).
Proof. intros. apply lt_0_INR. unfold wlen. lia. Qed.
Lemma wmean_behind : forall s n f w i, one_way s n f -> (1 <= w)%nat -> (i < n)%nat -> 0 <= s * (f i - wmean w f i).
Proof.
  intros s n f w i H Hw Hi. pose proof (wlen_INR w i Hw) as L. unfold wmean, wsum.
  replace (s * (f i - rsum f (wlo w i) (wlen w i) / INR (wlen w i))) with (s * rsum (fun j => f i - f j) (wlo w i) (wlen w i) * / INR (wlen w i)) by (rewrite rsum_minus_const; field; lra).
  apply Rmult_le_pos; [|apply Rlt_le, Rinv_0_lt_compat, L]. apply rsum_sign. intros j Hj. apply (far s n); auto. unfold wlo, wlen in Hj. lia.
Qed.
Lemma wmean_step : forall s n f w i, one_way s n f -> (1 <= w)%nat -> (w <= i < n)%nat -> 0 <= s * (wmean w f i - wmean (S w) f i).
Proof.
  intros s n f w i H Hw Hi. unfold wmean, wsum. rewrite !wl_full by lia.
  replace (wlo w i) with (S (wlo (S w) i)) by (unfold wlo; lia). rewrite rsum_first. set (o := wlo (S w) i).
  assert (P : 0 < INR w) by (apply lt_0_INR; lia). rewrite S_INR.
  replace (s * (rsum f (S o) w / INR w - (f o + rsum f (S o) w) / (INR w + 1))) with
    (s * (rsum f (S o) w - INR w * f o) * / (INR w * (INR w + 1))) by (field; lra).
  apply Rmult_le_pos; [|apply Rlt_le, Rinv_0_lt_compat; nra].
  assert (E : forall k, (k <= w)%nat -> 0 <= s * (rsum f (S o) k - INR k * f o)).
  { induction k; intros Hk; [cbn; lra|]. cbn [rsum]. rewrite S_INR. pose proof (IHk ltac:(lia)).
    pose proof (far s n f (S o + k) o H ltac:(unfold o, wlo; lia)). lra. }
  now apply E.
Qed.
Lemma wmean_leads : forall s n f w w' i, one_way s n f -> (1 <= w <= w')%nat -> (w' - 1 <= i < n)%nat -> 0 <= s * (wmean w f i - wmean w' f i).
Proof.
  intros s n f w w' i H Hw. induction w' as [|w' IH]; [lia|]. intros Hi.
  destruct (Nat.eq_dec w (S w')) as [->|]; [replace (wmean (S w') f i - wmean (S w') f i) with 0 by ring; lra|].
  specialize (IH ltac:(lia) ltac:(lia)). pose proof (wmean_step s n f w' i H ltac:(lia) ltac:(lia)). lra.
Qed.
Lemma wma_behind : forall s n f w i, one_way s n f -> (1 <= w)%nat -> (w - 1 <= i < n)%nat -> 0 <= s * (f i - wma_value w f i).
Proof.
  intros s n f w i H Hw Hi. unfold wma_value. assert (P : 1 <= INR w) by (change 1 with (INR 1); now apply le_INR).
  assert (D : forall k, rsum (fun j => INR (S j)) 0 k = INR k * (INR k + 1) / 2).
  { induction k; [cbn; field|]. cbn [rsum]. rewrite IHk, Nat.add_0_l, S_INR. field. }
  assert (E : forall k, rsum (fun j => INR (S j) * (f i - f (S i - w + j)%nat)) 0 k = f i * (INR k * (INR k + 1) / 2) - rsum (fun j => INR (S j) * f (S i - w + j)%nat) 0 k).
  { induction k; [cbn; field|]. cbn [rsum]. rewrite IHk, Nat.add_0_l, S_INR. field. }
  replace (s * (f i - rsum (fun j => INR (S j) * f (S i - w + j)%nat) 0 w / (INR w * (INR w + 1) / 2))) with
    (s * rsum (fun j => INR (S j) * (f i - f (S i - w + j)%nat)) 0 w * / (INR w * (INR w + 1) / 2)) by (rewrite E; field; nra).
  apply Rmult_le_pos; [|apply Rlt_le, Rinv_0_lt_compat; nra]. apply rsum_sign. intros j Hj.
  pose proof (far s n f i (S i - w + j) H ltac:(lia)). pose proof (pos_INR (S j)). nra.
Qed.
Lemma wmad_nonneg : forall w f i, (1 <= w)%nat -> 0 <= wmad w f i.
Proof.
  intros. unfold wmad, wmean, wsum. apply Rmult_le_pos; [|apply Rlt_le, Rinv_0_lt_compat, wlen_INR; auto].
  rewrite <- (Rmult_1_l (rsum _ _ _)). apply rsum_sign. intros. rewrite Rmult_1_l. apply Rabs_pos.
Qed.
Lemma ratio_sign : forall s a b r, 0 <= b -> 0 <= s * a -> ratio a b = Fin r -> 0 <= s * r.
Proof.
  intros s a b r B A E. unfold ratio in E. destruct (Req_EM_T b 0); [destruct (Rlt_dec 0 a); [|destruct (Rlt_dec a 0)]; discriminate|].
  injection E as <-. replace (s * (a / b)) with (s * a * / b) by (unfold Rdiv; ring). apply Rmult_le_pos; auto. apply Rlt_le, Rinv_0_lt_compat. lra.
Qed.
Lemma rel_sign : forall s a b, 0 < b -> 0 <= s * (a - b) -> 0 <= s * ((a - b) / b * 100).
Proof. intros. replace (s * ((a - b) / b * 100)) with (s * (a - b) * (100 * / b)) by (unfold Rdiv; ring). apply Rmult_le_pos; auto. assert (0 < / b) by now apply Rinv_0_lt_compat. lra. Qed.

Lemma gaps_fin : forall k g i r, gaps false 0 k g i = Fin r -> (k <= i)%nat /\ r = g i.
Proof. intros k g i r. unfold gaps. destruct (Nat.ltb_spec i k); [discriminate|]. intros E. injection E as <-. auto. Qed.
Lemma from_fin : forall k g i r, from k g i = Fin r -> (k <= i)%nat /\ r = g i.
Proof. intros k g i r. unfold from, fromx. destruct (Nat.ltb_spec i k); [discriminate|]. intros E. injection E as <-. auto. Qed.
Lemma fromx_fin : forall k g i r, fromx k g i = Fin r -> (k <= i)%nat /\ g i = Fin r.
Proof. intros k g i r. unfold fromx. destruct (Nat.ltb_spec i k); [discriminate|]. auto. Qed.
Lemma tab_row : forall n g i r out, Ok (tab n g) = Ok out -> (i < n)%nat -> nth i out NaN = Fin r -> g i = Fin r.
Proof. intros n g i r out E Hi N. apply Ok_inj in E. subst out. now rewrite nth_tab in N. Qed.

Lemma ema_way : forall s n f w k, (1 <= w)%nat -> (forall j, (k <= j)%nat -> (S j < n)%nat -> 0 <= s * (f (S j) - f j)) ->
  forall j, (k <= j)%nat -> (S j < n)%nat -> 0 <= s * (ema w f k (S j) - ema w f k j).
Proof.
  intros s n f w k Hw H j Hj Hn. unfold ema, expavg. replace (S j - k)%nat with (S (j - k)) by lia.
  apply (exp_moves s n f k H); [now apply span_unit|lia].
Qed.
Lemma trix_sign : forall s n c w k i, (1 <= w)%nat -> (1 <= k)%nat -> one_way s n c -> all_positive n c -> (k + k + k + 1 <= i < n)%nat -> 0 <= s * trix_value w k n c i.
Proof.
  intros s n c w k i Hw Hk W P Hi. unfold trix_value. unfold back. destruct (Nat.ltb_spec i 1); [lia|].
  destruct i as [|i]; [lia|]. replace (S i - 1)%nat with i by lia. apply rel_sign.
  - unfold ema3, ema, expavg. repeat (apply exp_pos; [now apply span_unit|]; intros).
    apply P. lia.
  - unfold ema3. apply (ema_way s n); auto; try lia. intros j Hj Hn. apply (ema_way s n); auto; try lia.
    intros j' Hj' Hn'. apply (ema_way s n); auto; lia.
Qed.

Lemma delta_sign : forall s n c t, one_way s n c -> (1 <= t < n)%nat -> 0 <= s * delta c t.
Proof. intros s n c t W Ht. unfold delta. apply (far s n c); auto. lia. Qed.
Lemma emv_sign : forall s n h l v t, one_way s n (fun i => h i + l i) -> all_positive n v ->
  (forall j, (j < n)%nat -> l j <= h j) -> (1 <= t < n)%nat -> 0 <= s * emv_value h l v t.
Proof.
  intros s n h l v t W V O Ht. unfold emv_value, delta. pose proof (far s n _ t (t - 1) W ltac:(lia)) as D. cbn beta in D.
  specialize (V t ltac:(lia)). specialize (O t ltac:(lia)).
  replace (s * ((h t - h (t - 1)%nat + (l t - l (t - 1)%nat)) * (h t - l t) / (2 * v t) * 100000000)) with
    (s * (h t + l t - (h (t - 1)%nat + l (t - 1)%nat)) * ((h t - l t) * (100000000 * / (2 * v t)))) by (field; lra).
  apply Rmult_le_pos; auto. apply Rmult_le_pos; [lra|]. apply Rmult_le_pos; [lra|]. apply Rlt_le, Rinv_0_lt_compat. lra.
Qed.
Lemma rel1_sign : forall s a b, 0 < b -> 0 <= s * (a - b) -> 0 <= s * (a / b - 1).
Proof. intros. replace (s * (a / b - 1)) with (s * (a - b) * / b) by (field; lra). apply Rmult_le_pos; auto. apply Rlt_le, Rinv_0_lt_compat; auto. Qed.

Theorem lean_table : forall s n h l c v ind out i r, s = 1 \/ s = -1 -> leans s n h l c v ind -> (i < n)%nat ->
  compute ind false (frame n h l c v) = Ok out -> nth i out NaN = Fin r -> 0 <= s * r.
Proof.
  intros s n h l c v ind out i r Hs L Hi E N.
  assert (P : all_positive n c -> forall i, (i < n)%nat -> c i <> 0) by (intros P j Hj; specialize (P j Hj); lra).
  destruct ind; cbn [leans] in L; try contradiction.
  all: try match type of L with match ?k with _ => _ end => destruct k; try contradiction end.
  all: try match type of L with match ?k with _ => _ end => destruct k; try contradiction end.
  - (* TSI *) destruct L as (Ha & Hb & W). destruct (nat_of window_slow ltac:(lia)) as [a ->]. destruct (nat_of window_fast ltac:(lia)) as [b ->].
    destruct (tsi_formula false a b n h l c v ltac:(lia) ltac:(lia)) as (o & E' & F). rewrite E' in E. cbn iota in F. subst o.
    apply (tab_row _ _ _ _ _ E Hi) in N. apply fromx_fin in N as [K N]. unfold warm in *.
    destruct (ratio _ _) as [| | |q] eqn:Q.
    + discriminate.
    + cbn in N. destruct (rsign 100); discriminate.
    + cbn in N. destruct (rsign 100); discriminate.
    + injection N as <-. apply ratio_sign with (s := s) in Q; [lra| |]; unfold ema, expavg.
      * rewrite <- (Rmult_1_l (exp_go _ _ _ _)). apply exp_sign; [apply span_unit; lia|]. intros. apply exp_sign; [apply span_unit; lia|].
        intros. rewrite Rmult_1_l. apply Rabs_pos.
      * apply exp_sign; [apply span_unit; lia|]. intros. apply exp_sign; [apply span_unit; lia|].
        intros. apply (delta_sign s n); auto. lia.
  - (* ROC *) destruct L as (Hw & W & Q). destruct (nat_of window ltac:(lia)) as [w ->].
    rewrite roc_formula in E by auto. apply (tab_row _ _ _ _ _ E Hi) in N. apply gaps_fin in N as [K ->].
    apply rel_sign; [apply Q; lia|]. apply (far s n); auto. lia.
  - (* AO *) destruct L as (Hw & W). destruct (nat_of window1 ltac:(lia)) as [a ->]. destruct (nat_of window2 ltac:(lia)) as [b ->].
    rewrite ao_formula in E by lia. apply (tab_row _ _ _ _ _ E Hi) in N. apply from_fin in N as [K ->]. unfold warm in K.
    apply (wmean_leads s n); try lia. intros j Hj. specialize (W j Hj). cbn beta in W. lra.
  - (* PPO *) destruct L as (Hf & Hg & W & Q). destruct (nat_of window_slow ltac:(lia)) as [a ->]. destruct (nat_of window_fast ltac:(lia)) as [b ->].
    destruct (nat_of window_sign ltac:(lia)) as [g ->].
    assert (Z : forall i, (i < n)%nat -> 0 < ema a c 0 i) by (intros j Hj; apply (ema_above n); auto; lia).
    destruct (ppo_formula false a b g n h l c v ltac:(lia) ltac:(lia) ltac:(lia)) as (E' & _ & _); [intros j Hj; specialize (Z j Hj); lra|].
    rewrite E' in E. apply (tab_row _ _ _ _ _ E Hi) in N. apply gaps_fin in N as [K ->].
    apply rel_sign; [now apply Z|]. apply (ema_leads s n); auto; lia.
  - (* PPO signal *) destruct L as (Hf & Hg & W & Q). destruct (nat_of window_slow ltac:(lia)) as [a ->]. destruct (nat_of window_fast ltac:(lia)) as [b ->].
    destruct (nat_of window_sign ltac:(lia)) as [g ->].
    assert (Z : forall i, (i < n)%nat -> 0 < ema a c 0 i) by (intros j Hj; apply (ema_above n); auto; lia).
    destruct (ppo_formula false a b g n h l c v ltac:(lia) ltac:(lia) ltac:(lia)) as (_ & E' & _); [intros j Hj; specialize (Z j Hj); lra|].
    rewrite E' in E. apply (tab_row _ _ _ _ _ E Hi) in N. apply gaps_fin in N as [K ->].
    unfold ema at 1, expavg. apply exp_sign; [apply span_unit; lia|]. intros t Ht. unfold warm in *.
    apply rel_sign; [apply Z; lia|]. apply (ema_leads s n); auto; lia.
  - (* MACD *) destruct L as (Hf & Hg & W). destruct (nat_of window_slow ltac:(lia)) as [a ->]. destruct (nat_of window_fast ltac:(lia)) as [b ->].
    destruct (nat_of window_sign ltac:(lia)) as [g ->].
    destruct (macd_formula false a b g n h l c v ltac:(lia) ltac:(lia) ltac:(lia)) as (E' & _ & _).
    rewrite E' in E. apply (tab_row _ _ _ _ _ E Hi) in N. apply gaps_fin in N as [K ->]. apply (ema_leads s n); auto; lia.
  - (* MACD signal *) destruct L as (Hf & Hg & W). destruct (nat_of window_slow ltac:(lia)) as [a ->]. destruct (nat_of window_fast ltac:(lia)) as [b ->].
    destruct (nat_of window_sign ltac:(lia)) as [g ->].
    destruct (macd_formula false a b g n h l c v ltac:(lia) ltac:(lia) ltac:(lia)) as (_ & E' & _).
    rewrite E' in E. apply (tab_row _ _ _ _ _ E Hi) in N. apply gaps_fin in N as [K ->].
    unfold ema at 1, expavg. apply exp_sign; [apply span_unit; lia|]. intros t Ht. unfold warm in *. apply (ema_leads s n); auto; lia.
  - (* TRIX *) destruct L as (Hw & W & Q). destruct (nat_of window ltac:(lia)) as [w ->].
    rewrite trix_formula in E by (lia || auto). apply (tab_row _ _ _ _ _ E Hi) in N. apply gaps_fin in N as [K ->]. unfold warm in *.
    destruct (Nat.eqb_spec (w - 1) 0); [lia|]. apply trix_sign; auto; lia.
  - (* CCI *) destruct L as (Hw & Hk & W). destruct (nat_of window ltac:(lia)) as [w ->].
    destruct (cci_formula false w r0 n h l c v ltac:(lia)) as (o & E' & F). rewrite E' in E. cbn iota in F. subst o.
    apply (tab_row _ _ _ _ _ E Hi) in N. apply fromx_fin in N as [K N].
    apply ratio_sign with (s := s) in N; auto. { apply Rmult_le_pos; [lra|]. apply wmad_nonneg. lia. } apply (wmean_behind s n); auto. lia.
  - (* FI *) destruct L as (Hw & W & V). destruct (nat_of window ltac:(lia)) as [w ->].
    rewrite fi_formula in E by lia. apply (tab_row _ _ _ _ _ E Hi) in N. apply gaps_fin in N as [K ->]. unfold warm in *.
    unfold ema, expavg. apply exp_sign; [apply span_unit; lia|]. intros t Ht. rewrite <- Rmult_assoc.
    apply Rmult_le_pos; [apply (delta_sign s n); auto; lia|]. apply V. lia.
  - (* EOM *) destruct L as (W & V & O). rewrite eom_formula in E by (intros j Hj; specialize (V j Hj); lra).
    apply (tab_row _ _ _ _ _ E Hi) in N. apply gaps_fin in N as [K ->]. apply (emv_sign s n); auto; lia.
  - (* EOM average *) destruct L as (Hw & W & V & O). destruct (nat_of window ltac:(lia)) as [w ->].
    rewrite sma_eom_formula in E by (lia || (intros j Hj; specialize (V j Hj); lra)).
    apply (tab_row _ _ _ _ _ E Hi) in N. apply gaps_fin in N as [K ->]. unfold wmean_from, warm in *.
    unfold Rdiv. rewrite <- Rmult_assoc. apply Rmult_le_pos.
    + apply rsum_sign. intros j Hj. apply (emv_sign s n); auto. lia.
    + apply Rlt_le, Rinv_0_lt_compat, lt_0_INR. unfold wlo. lia.
  - (* VPT *) destruct L as (W & Q & V). rewrite vpt_formula in E by auto.
    apply (tab_row _ _ _ _ _ E Hi) in N. apply gaps_fin in N as [K ->]. unfold vpt_value. apply rsum_sign. intros j Hj.
    rewrite <- Rmult_assoc. apply Rmult_le_pos; [|apply V; lia]. apply rel1_sign; [apply Q; lia|]. apply (far s n); auto. lia.
  - (* daily return *) destruct L as (W & Q). rewrite daily_formula in E by auto.
    apply (tab_row _ _ _ _ _ E Hi) in N. apply gaps_fin in N as [K ->]. rewrite <- Rmult_assoc. apply Rmult_le_pos; [|lra].
    apply rel1_sign; [apply Q; lia|]. apply (far s n); auto. lia.
  - (* cumulative return *) destruct L as (W & Q). rewrite cum_formula in E by (lia || (apply P; auto; lia)).
    apply (tab_row _ _ _ _ _ E Hi) in N. apply from_fin in N as [K ->]. rewrite <- Rmult_assoc. apply Rmult_le_pos; [|lra].
    apply rel1_sign; [apply Q; lia|]. apply (far s n); (assumption || lia).
Qed.

(** ** the averages of the close *)
Lemma kama_share : forall w p q c j, (1 <= w)%nat -> (w - 1 < j)%nat -> (1 <= p)%Z -> (1 <= q)%Z ->
  0 <= kama_sc_value (2 / IZR (p + 1)) (2 / IZR (q + 1)) (efficiency w c j) <= 1.
Proof.
  intros w p q c j Hw Hj Hp Hq. pose proof (efficiency_range w c j ltac:(lia)). pose proof (unit_power p Hp). pose proof (unit_power q Hq).
  set (f := 2 / IZR (p + 1)) in *. set (g := 2 / IZR (q + 1)) in *. set (e := efficiency w c j) in *.
  assert (0 <= e * (f - g) + g <= 1) by nra. unfold kama_sc_value, Rsqr. nra.
Qed.
Section KamaWay.
Variables (s : R) (n : nat) (c sc : nat -> R) (k : nat).
Hypothesis W : one_way s n c.
Hypothesis B : forall j, (k < j)%nat -> 0 <= sc j <= 1.
Lemma kama_behind : forall j, (k + j < n)%nat -> 0 <= s * (c (k + j)%nat - kama_val sc c k j).
Proof.
  induction j; intros Hj; cbn [kama_val].
  - rewrite Nat.add_0_r. replace (c k - c k) with 0 by ring. lra.
  - specialize (IHj ltac:(lia)). pose proof (W (k + j)%nat ltac:(lia)) as V. replace (k + S j)%nat with (S (k + j)) by lia.
    specialize (B (S (k + j)) ltac:(lia)). cbv zeta. set (y := sc (S (k + j))) in *.
    replace (s * (c (S (k + j)) - (kama_val sc c k j + y * (c (S (k + j)) - kama_val sc c k j)))) with
      ((1 - y) * (s * (c (S (k + j)) - c (k + j)%nat) + s * (c (k + j)%nat - kama_val sc c k j))) by ring.
    apply Rmult_le_pos; lra.
Qed.
Lemma kama_moves : forall j, (k + S j < n)%nat -> 0 <= s * (kama_val sc c k (S j) - kama_val sc c k j).
Proof.
  intros j Hj. pose proof (kama_behind j ltac:(lia)) as K. cbn [kama_val].
  pose proof (W (k + j)%nat ltac:(lia)) as V. replace (k + S j)%nat with (S (k + j)) by lia.
  specialize (B (S (k + j)) ltac:(lia)). cbv zeta. set (y := sc (S (k + j))) in *.
  replace (s * (kama_val sc c k j + y * (c (S (k + j)) - kama_val sc c k j) - kama_val sc c k j)) with
    (y * (s * (c (S (k + j)) - c (k + j)%nat) + s * (c (k + j)%nat - kama_val sc c k j))) by ring.
  apply Rmult_le_pos; lra.
Qed.
End KamaWay.
Lemma wmean_moves : forall s n c w i, one_way s n c -> (1 <= w)%nat -> (w - 1 <= i)%nat -> (S i < n)%nat -> 0 <= s * (wmean w c (S i) - wmean w c i).
Proof.
  intros s n c w i W Hw Hi Hn. pose proof (wmean_leads s n c w (S w) (S i) W ltac:(lia) ltac:(lia)) as A.
  unfold wmean, wsum in *. rewrite !wl_full in * by lia. replace (wlo w (S i)) with (S (wlo w i)) by (unfold wlo; lia).
  unfold Rdiv. rewrite <- Rmult_minus_distr_r, <- Rmult_assoc. apply Rmult_le_pos; [|apply Rlt_le, Rinv_0_lt_compat, lt_0_INR; lia].
  assert (G : forall k, (k <= w)%nat -> 0 <= s * (rsum c (S (wlo w i)) k - rsum c (wlo w i) k)).
  { induction k; intros Hk; cbn [rsum]; [lra|]. specialize (IHk ltac:(lia)). pose proof (W (wlo w i + k)%nat ltac:(unfold wlo; lia)).
    replace (S (wlo w i) + k)%nat with (S (wlo w i + k)) by lia. lra. }
  now apply G.
Qed.
Lemma wma_moves : forall s n c w i, one_way s n c -> (1 <= w)%nat -> (w - 1 <= i)%nat -> (S i < n)%nat -> 0 <= s * (wma_value w c (S i) - wma_value w c i).
Proof.
  intros s n c w i W Hw Hi Hn. unfold wma_value, Rdiv. rewrite <- Rmult_minus_distr_r, <- Rmult_assoc.
  apply Rmult_le_pos; [|apply Rlt_le, Rinv_0_lt_compat; apply le_INR in Hw; change (INR 1) with 1 in Hw; nra].
  assert (G : forall k, (k <= w)%nat -> 0 <= s * (rsum (fun j => INR (S j) * c (S (S i) - w + j)%nat) 0 k - rsum (fun j => INR (S j) * c (S i - w + j)%nat) 0 k)).
  { induction k; intros Hk; cbn [rsum]; [lra|]. specialize (IHk ltac:(lia)). rewrite Nat.add_0_l.
    pose proof (W (S i - w + k)%nat ltac:(lia)) as V. replace (S (S i) - w + k)%nat with (S (S i - w + k)) by lia.
    pose proof (pos_INR (S k)). nra. }
  now apply G.
Qed.

Theorem trail_table : forall s n h l c v ind out i r, one_way s n c -> trails ind -> (i < n)%nat ->
  compute ind false (frame n h l c v) = Ok out -> nth i out NaN = Fin r ->
  0 <= s * (c i - r) /\ forall r', (S i < n)%nat -> nth (S i) out NaN = Fin r' -> 0 <= s * (r' - r).
Proof.
  intros s n h l c v ind out i r W T Hi E N. destruct ind; cbn [trails] in T; try contradiction.
  all: try match type of T with match ?k with _ => _ end => destruct k; try contradiction end.
  - (* KAMA *) destruct T as (Hw & Hp & Hq). destruct (nat_of window ltac:(lia)) as [w ->]. rewrite kama_formula in E by lia.
    pose proof (tab_row _ _ _ _ _ E Hi N) as N1. apply from_fin in N1 as [K ->]. split.
    + pose proof (kama_behind s n c (fun j => kama_sc_value (2 / IZR (pow1 + 1)) (2 / IZR (pow2 + 1)) (efficiency w c j)) (w - 1) W
        ltac:(intros; apply kama_share; lia) (i - (w - 1))%nat ltac:(lia)) as Q.
      replace (w - 1 + (i - (w - 1)))%nat with i in Q by lia. exact Q.
    + intros r' Hn N'. apply (tab_row _ _ _ _ _ E Hn) in N'. apply from_fin in N' as [_ ->].
      replace (S i - (w - 1))%nat with (S (i - (w - 1))) by lia. apply (kama_moves s n); auto; [intros; apply kama_share; lia|lia].
  - (* EMA *) destruct (nat_of window ltac:(lia)) as [w ->]. rewrite ema_formula in E by lia.
    pose proof (tab_row _ _ _ _ _ E Hi N) as N1. apply from_fin in N1 as [K ->]. unfold ema, expavg. split.
    + rewrite Nat.sub_0_r. apply (exp_behind s n c 0); auto. apply span_unit. lia.
    + intros r' Hn N'. apply (tab_row _ _ _ _ _ E Hn) in N'. apply from_fin in N' as [_ ->]. apply (ema_way s n); auto; lia.
  - (* SMA *) destruct (nat_of window ltac:(lia)) as [w ->]. rewrite sma_formula in E by lia.
    pose proof (tab_row _ _ _ _ _ E Hi N) as N1. apply from_fin in N1 as [K ->]. unfold warm in K. split.
    + apply (wmean_behind s n); auto. lia.
    + intros r' Hn N'. apply (tab_row _ _ _ _ _ E Hn) in N'. apply from_fin in N' as [_ ->]. apply (wmean_moves s n); auto; lia.
  - (* WMA *) destruct (nat_of window ltac:(lia)) as [w ->]. rewrite wma_formula in E by lia.
    pose proof (tab_row _ _ _ _ _ E Hi N) as N1. apply gaps_fin in N1 as [K ->]. split.
    + apply (wma_behind s n); auto; lia.
    + intros r' Hn N'. apply (tab_row _ _ _ _ _ E Hn) in N'. apply gaps_fin in N' as [_ ->]. apply (wma_moves s n); auto; lia.
  - (* Bollinger *) destruct (nat_of window ltac:(lia)) as [w ->]. rewrite (proj1 (bb_formula false w _ n h l c v ltac:(lia))) in E.
    pose proof (tab_row _ _ _ _ _ E Hi N) as N1. apply from_fin in N1 as [K ->]. unfold warm in K. split.
    + apply (wmean_behind s n); auto. lia.
    + intros r' Hn N'. apply (tab_row _ _ _ _ _ E Hn) in N'. apply from_fin in N' as [_ ->]. apply (wmean_moves s n); auto; lia.
Qed.
Theorem faster_sma : forall s n h l c v w w' a b i x y, one_way s n c -> (1 <= w <= w')%Z -> (i < n)%nat ->
  compute (Sma w) false (frame n h l c v) = Ok a -> compute (Sma w') false (frame n h l c v) = Ok b ->
  nth i a NaN = Fin x -> nth i b NaN = Fin y -> 0 <= s * (x - y).
Proof.
  intros s n h l c v w w' a b i x y W Hw Hi A B X Y. destruct (nat_of w ltac:(lia)) as [u ->]. destruct (nat_of w' ltac:(lia)) as [u' ->].
  rewrite sma_formula in A, B by lia. apply (tab_row _ _ _ _ _ A Hi) in X. apply (tab_row _ _ _ _ _ B Hi) in Y.
  apply from_fin in X as [_ ->]. apply from_fin in Y as [K ->]. unfold warm in K. apply (wmean_leads s n); auto; lia.
Qed.
Theorem faster_ema : forall s n h l c v w w' a b i x y, one_way s n c -> (1 <= w <= w')%Z -> (i < n)%nat ->
  compute (Ema w) false (frame n h l c v) = Ok a -> compute (Ema w') false (frame n h l c v) = Ok b ->
  nth i a NaN = Fin x -> nth i b NaN = Fin y -> 0 <= s * (x - y).
Proof.
  intros s n h l c v w w' a b i x y W Hw Hi A B X Y. destruct (nat_of w ltac:(lia)) as [u ->]. destruct (nat_of w' ltac:(lia)) as [u' ->].
  rewrite ema_formula in A, B by lia. apply (tab_row _ _ _ _ _ A Hi) in X. apply (tab_row _ _ _ _ _ B Hi) in Y.
  apply from_fin in X as [_ ->]. apply from_fin in Y as [K ->]. apply (ema_leads s n); auto; lia.
Qed.

(** ** the directional indicators *)
Lemma wilder_zero : forall w x t, (1 <= w)%nat -> (forall j, (1 <= j <= w + t)%nat -> x j = 0) -> wilder_sum w x t = 0.
Proof.
  intros w x t Hw. induction t; intros H; cbn [wilder_sum].
  - rewrite (rsum_const' _ _ _ 0) by (intros; apply H; lia). ring.
  - rewrite IHt by (intros; apply H; lia). rewrite H by lia. unfold Rdiv. ring.
Qed.
Lemma di_none : forall w x tr i, (1 <= w)%nat -> (w < i)%nat -> (forall j, (1 <= j <= i)%nat -> x j = 0) -> di_value w x tr i = 0.
Proof.
  intros. unfold di_value. destruct (Req_EM_T _ _); auto. rewrite wilder_zero; [unfold Rdiv; ring|auto|]. intros. apply H1. lia.
Qed.
Theorem no_other_side : forall w n h l c v, (1 <= w <= Z.of_nat n)%Z ->
  (one_way 1 n h -> one_way 1 n l -> compute (AdxNeg w) false (frame n h l c v) = Ok (repeat (Fin 0) n)) /\
  (one_way (-1) n h -> one_way (-1) n l -> compute (AdxPos w) false (frame n h l c v) = Ok (repeat (Fin 0) n)).
Proof.
  intros w n h l c v Hw. destruct (nat_of w ltac:(lia)) as [u ->]. destruct (di_formula false u n h l c v ltac:(lia)) as [Ep En].
  split; intros H L; [rewrite En|rewrite Ep]; f_equal; rewrite repeat_tab; apply tab_ext; intros i Hi; f_equal.
  all: destruct (Nat.leb_spec i u); auto; apply di_none; try lia; intros j Hj.
  - unfold dm_minus. pose proof (far 1 n h j (j - 1) H ltac:(lia)). pose proof (far 1 n l j (j - 1) L ltac:(lia)).
    destruct (Rlt_dec _ _); auto. rewrite Rmax_left; lra.
  - unfold dm_plus. pose proof (far (-1) n h j (j - 1) H ltac:(lia)). pose proof (far (-1) n l j (j - 1) L ltac:(lia)).
    destruct (Rlt_dec _ _); auto. rewrite Rmax_left; lra.
Qed.
