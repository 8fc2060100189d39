(** * Wrapped: ATR with a window below 1 (C45). *)
From Verif Require Import Lists Api SpecNum SpecWrapped Align Rows Fill Tab Averages Range Oscillators Returns TrueRange Bands CausalPsar.
Local Open Scope R_scope.

Lemma from_end_mod : forall n K k, (K < n)%nat -> (k < n + K)%nat ->
  from_end n (- Z.of_nat K + Z.of_nat k) = ((n - K + k) mod n)%nat.
Proof.
  intros n K k HK Hk. unfold from_end. destruct (Z.ltb_spec (- Z.of_nat K + Z.of_nat k) 0).
  - rewrite Nat.mod_small by lia. lia.
  - replace (n - K + k)%nat with (k - K + 1 * n)%nat by lia. rewrite Nat.mod_add by lia.
    rewrite Nat.mod_small by lia. lia.
Qed.
Lemma from_end_prev : forall n K k, (K < n)%nat -> (k < n + K)%nat ->
  from_end n (- Z.of_nat K + Z.of_nat k - 1) = ((n - K - 1 + k) mod n)%nat.
Proof.
  intros n K k HK Hk. unfold from_end. destruct (Z.ltb_spec (- Z.of_nat K + Z.of_nat k - 1) 0).
  - rewrite Nat.mod_small by lia. lia.
  - replace (n - K - 1 + k)%nat with (k - K - 1 + 1 * n)%nat by lia. rewrite Nat.mod_add by lia.
    rewrite Nat.mod_small by lia. lia.
Qed.
Lemma mod_apart : forall n a b, (a < b)%nat -> (b < a + n)%nat -> (a mod n <> b mod n)%nat.
Proof.
  intros n a b H1 H2 E. assert (n <> 0)%nat by lia.
  pose proof (Nat.div_mod a n H). pose proof (Nat.div_mod b n H). rewrite E in H0.
  assert (b - a = n * (b / n - a / n))%nat by (rewrite Nat.mul_sub_distr_l; lia).
  destruct (b / n - a / n)%nat; nia.
Qed.

Section W.
Variables (n K : nat) (tr : nat -> R).
Hypotheses (K1 : (1 <= K)%nat) (Kn : (K < n)%nat).
Let step (atr : list xr) (k : nat) : list xr :=
  let i := (- Z.of_nat K + Z.of_nat k)%Z in
  upd (from_end n i)
    ((nth (from_end n (i - 1)) atr fnan **. fofZ (- Z.of_nat K - 1) +. nth (from_end n i) (tab n (from 0 tr)) fnan)
       /. fofZ (- Z.of_nat K))%F atr.
Let start : list xr := upd (n - K - 1) (Fin (mean_of 0 (n - K) tr)) (repeat (#0)%F n).

Lemma wrapped_inv : forall k, (k <= n + K)%nat ->
  length (fold_left step (seq 0 k) start) = n /\
  forall j, (j <= k)%nat -> (k < j + n)%nat ->
    nth ((n - K - 1 + j) mod n) (fold_left step (seq 0 k) start) NaN = Fin (wrapped_at K n tr j).
Proof.
  induction k; intros Hk.
  - split; [cbn [seq fold_left]; unfold start; now rewrite Align.len_upd, repeat_length|].
    intros j Hj Hj'. replace j with 0%nat by lia. cbn [seq fold_left wrapped_at]. unfold start.
    rewrite Nat.add_0_r, Nat.mod_small by lia. now rewrite nth_upd_eq by (rewrite repeat_length; lia).
  - destruct (IHk ltac:(lia)) as [L I]. rewrite seq_S, fold_left_app. cbn [Nat.add fold_left].
    set (a := fold_left step (seq 0 k) start) in *. unfold step at 1. unfold step at 1.
    assert (M : ((n - K + k) mod n < n)%nat) by (apply Nat.mod_upper_bound; lia).
    rewrite from_end_mod, from_end_prev by lia. split; [now rewrite Align.len_upd|].
    intros j Hj Hj'. destruct (Nat.eq_dec j (S k)) as [->|Ne].
    + replace (n - K - 1 + S k)%nat with (n - K + k)%nat by lia. rewrite nth_upd_eq by lia.
      change (@fnan xr XR) with NaN. rewrite I by lia.
      rewrite nth_tab by auto. unfold from, fromx. change ((n - K + k) mod n <? 0)%nat with false. cbv iota.
      cbn [wrapped_at]. change (@fofZ xr XR) with (fun z => Fin (IZR z)). cbv beta.
      cbn [fmul fadd fdiv XR xmul xadd].
      assert (P : 0 < INR K) by (apply lt_0_INR; lia).
      rewrite xdiv_fin by (rewrite opp_IZR, <- INR_IZR_INZ; lra).
      f_equal. rewrite minus_IZR, opp_IZR, <- INR_IZR_INZ, plus_INR. cbn [INR]. field. lra.
    + rewrite nth_upd_neq; [apply I; lia|]. intros E. symmetry in E.
      apply (mod_apart n (n - K - 1 + j) (n - K + k)) in E; auto; lia.
Qed.
End W.

Lemma wrapped_below : forall n K tr, (1 <= K)%nat -> (K < n)%nat ->
  atr_wrapped n (- Z.of_nat K) (tab n (from 0 tr)) = tab n (from 0 (wrapped_value K n tr)).
Proof.
  intros n K tr K1 Kn. unfold atr_wrapped.
  destruct (Z.ltb_spec (- Z.of_nat K) 0); [|lia].
  assert (E1 : from_end n (- Z.of_nat K) = (n - K)%nat).
  { unfold from_end. destruct (Z.ltb_spec (- Z.of_nat K) 0); lia. }
  assert (E2 : from_end n (- Z.of_nat K - 1) = (n - K - 1)%nat).
  { unfold from_end. destruct (Z.ltb_spec (- Z.of_nat K - 1) 0); lia. }
  rewrite E1, E2, firstn_tab, smean_tab by lia.
  replace (Z.to_nat (Z.of_nat n - - Z.of_nat K)) with (n + K)%nat by lia.
  destruct (wrapped_inv n K tr K1 Kn (n + K) (le_n _)) as [L I].
  unfold mean_of in L, I. rewrite !Nat.sub_0_r in L, I.
  apply list_tab with NaN; [exact L|].
  intros i Hi. specialize (I (K + 1 + i)%nat ltac:(lia) ltac:(lia)).
  replace (n - K - 1 + (K + 1 + i))%nat with (i + 1 * n)%nat in I by lia.
  rewrite Nat.mod_add, Nat.mod_small in I by lia. exact I.
Qed.
Lemma atr_wrapped_formula : forall fl k n h l c v, (1 <= k)%nat -> (k < n)%nat ->
  compute (Atr (- Z.of_nat k)) fl (frame n h l c v) = Ok (tab n (from 0 (wrapped_value k n (trange h l c)))).
Proof.
  intros fl k n h l c v Hk Hn. cbn [compute]. cols. unfold average_true_range.
  destruct (Z.leb_spec (- Z.of_nat k) 0); [|lia]. rewrite len_tab.
  destruct (Z.ltb_spec (Z.of_nat n) (1 - - Z.of_nat k)); [lia|].
  rewrite true_range_tab, wrapped_below by auto. now rewrite check_fin by (reflexivity || lia).
Qed.
Lemma atr_wrapped_short : forall fl k n h l c v, (n <= k)%nat ->
  compute (Atr (- Z.of_nat k)) fl (frame n h l c v) = Raise IndexError.
Proof.
  intros fl k n h l c v Hn. cbn [compute]. cols. unfold average_true_range.
  destruct (Z.leb_spec (- Z.of_nat k) 0); [|lia]. rewrite len_tab.
  destruct (Z.ltb_spec (Z.of_nat n) (1 - - Z.of_nat k)); [reflexivity|lia].
Qed.

(** window 0: the seed is the mean of no rows *)
Lemma wrapped_zero : forall n (tr : list xr), (1 <= n)%nat -> atr_wrapped n 0 tr = tab n (fun _ => NaN).
Proof.
  intros n tr Hn. unfold atr_wrapped. change (0 <? 0)%Z with false. cbv iota.
  replace (Z.to_nat (Z.of_nat n - 0)) with n by lia.
  set (step := fun (atr : list xr) (k : nat) => _). set (start := upd _ _ _).
  assert (I : forall k, (k <= n)%nat -> length (fold_left step (seq 0 k) start) = n /\
    nth (n - 1) (fold_left step (seq 0 k) start) NaN = NaN /\
    forall j, (j < k)%nat -> nth j (fold_left step (seq 0 k) start) NaN = NaN).
  { induction k; intros Hk.
    - cbn [seq fold_left]. unfold start. rewrite Align.len_upd, repeat_length. split; [auto|]. split; [|lia].
      unfold from_end. change (0 - 1 <? 0)%Z with true. cbv iota.
      replace (Z.to_nat (Z.of_nat n + (0 - 1))) with (n - 1)%nat by lia.
      now rewrite nth_upd_eq by (rewrite repeat_length; lia).
    - destruct (IHk ltac:(lia)) as [L [N I]]. rewrite seq_S, fold_left_app. cbn [Nat.add fold_left].
      set (a := fold_left step (seq 0 k) start) in *. unfold step at 1 2 3.
      assert (E : from_end n (0 + Z.of_nat k) = k).
      { unfold from_end. destruct (Z.ltb_spec (0 + Z.of_nat k) 0); lia. }
      assert (P : nth (from_end n (0 + Z.of_nat k - 1)) a fnan = NaN).
      { unfold from_end. destruct (Z.ltb_spec (0 + Z.of_nat k - 1) 0).
        - replace (Z.to_nat (Z.of_nat n + (0 + Z.of_nat k - 1))) with (n - 1)%nat by lia. exact N.
        - apply I. lia. }
      rewrite E, P. cbn [fmul XR xmul fadd xadd fdiv xdiv].
      split; [now rewrite Align.len_upd|]. split.
      + destruct (Nat.eq_dec k (n - 1)) as [->|]; [now rewrite nth_upd_eq by lia|now rewrite nth_upd_neq].
      + intros j Hj. destruct (Nat.eq_dec k j) as [->|]; [now rewrite nth_upd_eq by lia|rewrite nth_upd_neq by auto; apply I; lia]. }
  destruct (I n (le_n n)) as [L [_ J]]. apply list_tab with NaN; auto.
Qed.
Lemma atr_zero_formula : forall fl n h l c v, (1 <= n)%nat ->
  compute (Atr 0) fl (frame n h l c v) = Ok (tab n (fun _ => if fl then Fin 0 else NaN)).
Proof.
  intros fl n h l c v Hn. cbn [compute]. cols. unfold average_true_range.
  change (0 <=? 0)%Z with true. cbv iota. rewrite len_tab.
  destruct (Z.ltb_spec (Z.of_nat n) (1 - 0)); [lia|]. rewrite wrapped_zero by auto.
  rewrite (tab_ext n (fun _ => NaN) (from n (fun _ => 0))).
  - rewrite check_from by (reflexivity || lia). f_equal. apply tab_ext. intros i Hi. unfold gaps.
    destruct (Nat.ltb_spec i n); [reflexivity|lia].
  - intros i Hi. unfold from, fromx. destruct (Nat.ltb_spec i n); [reflexivity|lia].
Qed.
