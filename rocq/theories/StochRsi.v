(** * StochRsi: the formulas of the three StochRSI lines (C25) *)
From Coq Require Import Lra.
From Verif Require Import Lists Api SpecNum Rows Fill Tab Averages Oscillators.
Local Open Scope R_scope.

Lemma meanx_full : forall w n k g, (1 <= w)%nat ->
  rolling (Z.of_nat w) (Z.of_nat w) agg_mean (tab n (fromx k g)) = Ok (tab n (fromx (k + w - 1) (wmeanx w g))).
Proof.
  intros. rewrite rolling_full by auto using std_mean. f_equal. apply fromx_ext. intros i Hi.
  unfold wmeanx. destruct forallb eqn:E.
  - rewrite forallb_forall in E. transitivity (win_mean w (map (fun j => Fin (value (g j))) (seq (wlo w i) (wlen w i)))).
    + cbn [win_agg]. f_equal. apply map_ext_in. intros j Hj. specialize (E j Hj). destruct (g j); try discriminate. reflexivity.
    + apply agg_mean_tab; unfold wlen; lia.
  - assert (L : (length (obs (map (fun j => xprep (g j)) (seq (wlo w i) (wlen w i)))) < w)%nat).
    { set (l := map _ _). assert (Ll : length l = wlen w i) by (unfold l; now rewrite map_length, seq_length).
      assert (length (obs l) < length l)%nat; [|unfold wlen in *; lia].
      assert (X : exists j, In j (seq (wlo w i) (wlen w i)) /\ finite (g j) = false).
      { clear - E. induction (seq _ _) as [|a s IH]; cbn in *; [discriminate|].
        destruct (finite (g a)) eqn:F; [|exists a; auto]. destruct (IH E) as (j & ? & ?). exists j. auto. }
      destruct X as (j & Hj & F). apply in_seq in Hj. apply obs_missing with (j - wlo w i)%nat; [lia|].
      unfold l. rewrite nth_indep with (d' := xprep (g 0%nat)) by (rewrite map_length, seq_length; lia).
      change (xprep (g 0%nat)) with ((fun j => xprep (g j)) 0%nat). rewrite map_nth, seq_nth by lia.
      replace (wlo w i + (j - wlo w i))%nat with j by lia. destruct (g j); try discriminate; reflexivity. }
    unfold win_agg, agg_apply, agg_max, agg_min, win_mean. destruct (Nat.ltb_spec (length (obs (map (fun j => xprep (g j)) (seq (wlo w i) (wlen w i))))) w); [reflexivity|lia].
Qed.

Section Lines.
Variables (fl : bool) (w s1 s2 n : nat) (h l c v : nat -> R).
Hypotheses (Hw : (1 <= w)%nat) (H1 : (1 <= s1)%nat) (H2 : (1 <= s2)%nat).
Let r i := rsi_value (wilder w (gain c) 0 i) (wilder w (loss c) 0 i).
Let k := (warm fl w + (w - 1))%nat.
Let s i := ratio (r i - wmin w r i) (wmax w r i - wmin w r i).
Lemma stochrsi_run_formula : stochrsi_run (tab n (from 0 c)) (Z.of_nat w) (Z.of_nat s1) fl =
  Ok (tab n (fromx k s), tab n (fromx (k + (s1 - 1)) (wmeanx s1 s))).
Proof.
  unfold stochrsi_run. assert (R := rsi_formula fl w n h l c v Hw). cbn [compute] in R.
  rewrite close_tab, tab_from0 in R. rewrite R. cbn [bind]. fold r. change (fun i => rsi_value (wilder w (gain c) 0 i) (wilder w (loss c) 0 i)) with r.
  rewrite min_full, max_full by auto. cbn [bind]. rewrite !ssub_from, sdiv_from.
  replace (Nat.max (Nat.max (warm fl w) (warm fl w + w - 1)) (Nat.max (warm fl w + w - 1) (warm fl w + w - 1))) with k by (unfold k; lia).
  rewrite meanx_full by auto. cbn [bind]. do 4 f_equal. lia.
Qed.
Lemma stochrsi_formula :
  shows fl 0 (tab n (fromx k s)) (compute (StochRsi (Z.of_nat w) (Z.of_nat s1) (Z.of_nat s2)) fl (frame n h l c v)) /\
  shows fl 0 (tab n (fromx (k + (s1 - 1)) (wmeanx s1 s))) (compute (StochRsiK (Z.of_nat w) (Z.of_nat s1) (Z.of_nat s2)) fl (frame n h l c v)) /\
  shows fl 0 (tab n (fromx (k + (s1 - 1) + (s2 - 1)) (wmeanx s2 (wmeanx s1 s))))
    (compute (StochRsiD (Z.of_nat w) (Z.of_nat s1) (Z.of_nat s2)) fl (frame n h l c v)).
Proof.
  cbn [compute]. rewrite close_tab, tab_from0. unfold stochrsi, stochrsi_k, stochrsi_d.
  rewrite stochrsi_run_formula. cbn [bind]. rewrite meanx_full by auto. cbn [bind].
  replace (k + (s1 - 1) + s2 - 1)%nat with (k + (s1 - 1) + (s2 - 1))%nat by lia.
  repeat split; apply shows_check; (reflexivity || lia).
Qed.
End Lines.
