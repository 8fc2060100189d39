(** * DefaultsFacts: proofs about default arguments and parameters that do not
    matter (C51, C69, C70). *)
From Coq Require Import Floats.
From Verif Require Import Lists Api Defaults Raises FloatArith Samples.

Section Agree.
Context {F : Type} {A : Arith F}.

(** the functions whose default window differs from the class's, called
    without a window *)
Definition default_differs (c : call F) : bool :=
  match c with
  | call_ema_indicator None | call_sma_indicator None
  | call_donchian_channel_mband None _ | call_donchian_channel_wband None _
  | call_donchian_channel_pband None _ => true
  | _ => false
  end.

Lemma defaults_agree : forall c : call F,
  default_differs c = false -> by_class c = Some (by_function c).
Proof.
  intros c H. destruct c; try reflexivity; destruct window; try reflexivity; discriminate.
Qed.

Lemma defaults_disagree : forall c : call F, default_differs c = true ->
  by_class c <> Some (by_function c).
Proof.
  intros c H. destruct c; try discriminate H; destruct window; try discriminate H; cbn; discriminate.
Qed.

(** ** parameters that do not change the result *)
Ltac same_case :=
  repeat match goal with
  | |- context [ewm_span ?w ?m ?s] => destruct (ewm_span w m s); cbn [bind]
  | |- context [rolling ?w ?m ?g ?s] => destruct (rolling w m g s); cbn [bind]
  end; try reflexivity.

Lemma macd_sign_irrelevant : forall s f g g' fl (rows : list (bar F)), (1 <= g)%Z -> (1 <= g')%Z ->
  compute (Macd s f g) fl rows = compute (Macd s f g') fl rows.
Proof.
  intros. cbn [compute]. unfold macd, macd_run, ema_.
  destruct (ewm_span f _ _); [|reflexivity]. cbn [bind].
  destruct (ewm_span s _ _); [|reflexivity]. cbn [bind].
  destruct (span_good g (if fl then 0 else g)%Z (ssub a a0)) as [r ->]; [assumption|].
  destruct (span_good g' (if fl then 0 else g')%Z (ssub a a0)) as [r' ->]; [assumption|]. reflexivity.
Qed.
Lemma ppo_sign_irrelevant : forall s f g g' fl (rows : list (bar F)), (1 <= g)%Z -> (1 <= g')%Z ->
  compute (Ppo s f g) fl rows = compute (Ppo s f g') fl rows /\
  compute (Pvo s f g) fl rows = compute (Pvo s f g') fl rows.
Proof.
  intros. split; cbn [compute]; unfold ppo, ppo_run, pvo, pvo_run, ema_;
  (destruct (ewm_span f _ _); [|reflexivity]; cbn [bind];
   destruct (ewm_span s _ _); [|reflexivity]; cbn [bind];
   destruct (span_good g (if fl then 0 else g)%Z (muls (sdiv (ssub a a0) a0) (fofZ 100))) as [r ->];
     [assumption|];
   destruct (span_good g' (if fl then 0 else g')%Z (muls (sdiv (ssub a a0) a0) (fofZ 100))) as [r' ->];
     [assumption|]; reflexivity).
Qed.
Lemma kst_sign_irrelevant : forall r1 r2 r3 r4 w1 w2 w3 w4 g g' fl (rows : list (bar F)),
  (0 <= g)%Z -> (0 <= g')%Z ->
  compute (Kst r1 r2 r3 r4 w1 w2 w3 w4 g) fl rows = compute (Kst r1 r2 r3 r4 w1 w2 w3 w4 g') fl rows.
Proof.
  intros. cbn [compute]. unfold kst, kst_run.
  do 4 (destruct (kst_rocma _ _ _ _); [|reflexivity]; cbn [bind]).
  match goal with |- context [rolling g 0 agg_mean ?s] =>
    destruct (rolling_good g 0 agg_mean s) as [r ->]; [lia|assumption|];
    destruct (rolling_good g' 0 agg_mean s) as [r' ->]; [lia|assumption|] end.
  reflexivity.
Qed.
Lemma ichimoku_irrelevant : forall w1 w1' w2 w3 w3' vis vis' fl (rows : list (bar F)),
  compute (IchiConv w1 w2 w3 vis) fl rows = compute (IchiConv w1 w2 w3' vis') fl rows /\
  compute (IchiBase w1 w2 w3 vis) fl rows = compute (IchiBase w1 w2 w3' vis') fl rows /\
  compute (IchiA w1 w2 w3 vis) fl rows = compute (IchiA w1 w2 w3' vis) fl rows /\
  ((0 <= w1)%Z -> (0 <= w1')%Z ->
   compute (IchiB w1 w2 w3 vis) fl rows = compute (IchiB w1' w2 w3 vis) fl rows).
Proof.
  intros. repeat split; try reflexivity. intros H H'. cbn [compute]. unfold ichimoku_b, ichimoku_run.
  assert (G : forall w agg (s : list F), (0 <= w)%Z -> exists r, rolling w (minp_of fl w) agg s = Ok r).
  { intros. apply rolling_good; unfold minp_of; destruct fl; lia. }
  destruct (G w1 agg_max (map b_high rows) H) as [? ->].
  destruct (G w1' agg_max (map b_high rows) H') as [? ->]. cbn [bind].
  destruct (G w1 agg_min (map b_low rows) H) as [? ->].
  destruct (G w1' agg_min (map b_low rows) H') as [? ->]. cbn [bind]. 
  destruct (rolling w2 _ agg_max _); [|reflexivity]. cbn [bind].
  destruct (rolling w2 _ agg_min _); reflexivity.
Qed.
Lemma bollinger_dev_irrelevant : forall w d d' fl (rows : list (bar F)),
  compute (BbM w d) fl rows = compute (BbM w d') fl rows.
Proof.
  intros. cbn [compute]. unfold bollinger_mavg, bollinger_run.
  destruct (rolling w _ agg_mean _); [|reflexivity]. cbn [bind].
  destruct (rolling w _ agg_std0 _); reflexivity.
Qed.
Lemma keltner_original_irrelevant : forall w a a' m m' fl (rows : list (bar F)),
  compute (KcM w a true m) fl rows = compute (KcM w a' true m') fl rows /\
  compute (KcH w a true m) fl rows = compute (KcH w a' true m') fl rows /\
  compute (KcL w a true m) fl rows = compute (KcL w a' true m') fl rows /\
  compute (KcW w a true m) fl rows = compute (KcW w a' true m') fl rows /\
  compute (KcP w a true m) fl rows = compute (KcP w a' true m') fl rows /\
  compute (KcHI w a true m) fl rows = compute (KcHI w a' true m') fl rows /\
  compute (KcLI w a true m) fl rows = compute (KcLI w a' true m') fl rows.
Proof. intros. repeat split. Qed.
Lemma keltner_mband_irrelevant : forall w a m m' fl (rows : list (bar F)),
  compute (KcM w a false m) fl rows = compute (KcM w a false m') fl rows.
Proof.
  intros. cbn [compute]. unfold keltner_channel_mband, keltner_run.
  destruct (ewm_span _ _ _); [|reflexivity]. cbn [bind].
  destruct (average_true_range _ _ _ _ _); reflexivity.
Qed.
Lemma stoch_smooth_irrelevant : forall w s s' fl (rows : list (bar F)),
  compute (Stoch w s) fl rows = compute (Stoch w s') fl rows.
Proof. reflexivity. Qed.
Lemma stochrsi_smooth_irrelevant : forall w s1 s1' s2 s2' fl (rows : list (bar F)),
  (0 <= s1)%Z -> (0 <= s1')%Z ->
  compute (StochRsi w s1 s2) fl rows = compute (StochRsi w s1' s2') fl rows /\
  compute (StochRsiK w s1 s2) fl rows = compute (StochRsiK w s1 s2') fl rows.
Proof.
  intros. split; [|reflexivity]. cbn [compute]. unfold stochrsi, stochrsi_run.
  destruct (rsi _ _ _); [|reflexivity]. cbn [bind].
  destruct (rolling w w agg_min _); [|reflexivity]. cbn [bind].
  destruct (rolling w w agg_max _); [|reflexivity]. cbn [bind].
  match goal with |- context [rolling s1 s1 agg_mean ?s] =>
    destruct (rolling_good s1 s1 agg_mean s) as [r ->]; [lia|lia|];
    destruct (rolling_good s1' s1' agg_mean s) as [r' ->]; [lia|lia|] end.
  reflexivity.
Qed.
Lemma eom_window_irrelevant : forall w w' fl (rows : list (bar F)),
  compute (Eom w) fl rows = compute (Eom w') fl rows.
Proof. reflexivity. Qed.
End Agree.

(** ** the default Donchian functions on a concrete frame *)
Definition rising : list (bar float) :=
  bars_from 0 (map (fun k => let x := PrimFloat.of_uint63 (Uint63.of_Z (Z.of_nat k)) in (x + 2, x + 1, x + 1.5, 100)%float)
                   (seq 0 22)).
Definition last_of (r : result (list float)) : float :=
  match r with Ok s => last s nan | Raise _ => nan end.
Lemma donchian_defaults :
  let hband := call_function (call_donchian_channel_hband None None) None rising in
  let lband := call_function (call_donchian_channel_lband None None) None rising in
  let mband := call_function (call_donchian_channel_mband None None) None rising in
  last_of hband = 23%float /\ last_of lband = 3%float /\ last_of mband = 18%float /\
  PrimFloat.eqb (last_of mband) ((last_of hband + last_of lband) / 2)%float = false.
Proof. vm_compute. repeat split. Qed.
