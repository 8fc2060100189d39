(** * Nest: wider settings give wider channels, rounding included. *)
From Coq Require Import Floats.
From Verif Require Import Lists Arith FloatArith Order FloatOrder Api Align Rows Rounded RoundedAdx RoundedBands SpecBinary64 Binary64.

Section Nest.
Context {F : Type} {A : Arith F} {AL : ArithLaws F} {RL : RoundLaws F}.
Local Open Scope f_scope.

Lemma mul_wider : forall k k' y : F, fle k k' -> nn y -> Order.num (k **. y) -> Order.num (k' **. y) -> fle (k **. y) (k' **. y).
Proof. intros k k' y K Y N N'. apply mul_mono; auto. apply Y. nan; auto. Qed.
Lemma lower_wider : forall (m s : list F) k k', length m = length s -> Forall nn s -> fle k k' ->
  lower (sadd m (scal k s)) (sadd m (scal k' s)) /\ lower (ssub m (scal k' s)) (ssub m (scal k s)).
Proof.
  intros m. induction m as [|x m IH]; intros [|y s] k k' L H K; try discriminate; [split; constructor|]. inversion H; subst.
  destruct (IH s k k') as [I1 I2]; auto. split; constructor; auto; intros Na Nb.
  - apply add_mono; auto; [apply fle_refl; nan; auto|]. apply mul_wider; auto; nan; auto.
  - apply sub_mono; auto; [apply fle_refl; nan; auto|]. apply mul_wider; auto; nan; auto.
Qed.
Lemma bb_wider : forall (c : list F) w k k' h h' l l', fle k k' ->
  bollinger_hband c w k false = Ok h -> bollinger_hband c w k' false = Ok h' ->
  bollinger_lband c w k false = Ok l -> bollinger_lband c w k' false = Ok l' -> lower h h' /\ lower l' l.
Proof.
  intros c w k k' h h' l l' K. unfold bollinger_hband, bollinger_lband, bollinger_run.
  destruct (rolling w _ agg_mean c) as [a|] eqn:Ea; [|discriminate]. destruct (rolling w _ agg_std0 c) as [s|] eqn:Es; [|discriminate].
  cbn. intros E1 E2 E3 E4. injection E1 as <-. injection E2 as <-. injection E3 as <-. injection E4 as <-.
  apply lower_wider; auto; [now rewrite (len_rolling _ _ _ _ _ Ea), (len_rolling _ _ _ _ _ Es)|exact (std_nn _ _ _ _ Es)].
Qed.
Lemma kc_wider : forall (h l c : list F) w wa k k' hb hb' lb lb', fle k k' -> (1 <= wa < 2 ^ 63)%Z -> length l = length c -> length h = length c ->
  Forall2 ranged h l ->
  keltner_channel_hband h l c w wa false false k = Ok hb -> keltner_channel_hband h l c w wa false false k' = Ok hb' ->
  keltner_channel_lband h l c w wa false false k = Ok lb -> keltner_channel_lband h l c w wa false false k' = Ok lb' -> lower hb hb' /\ lower lb' lb.
Proof.
  intros h l c w wa k k' hb hb' lb lb' K Hw Ll Lh Hr. unfold keltner_channel_hband, keltner_channel_lband, keltner_run.
  destruct (ewm_span w _ c) as [t|] eqn:Et; [|discriminate]. destruct (average_true_range h l c wa false) as [a|] eqn:Ea; [|discriminate].
  cbn. intros E1 E2 E3 E4. injection E1 as <-. injection E2 as <-. injection E3 as <-. injection E4 as <-.
  apply lower_wider; auto; [now rewrite (len_ewm_span _ _ _ _ Et), (atr_len h l c wa false a)|eapply atr_nn; eauto].
Qed.

(** ** longer windows *)
Lemma window_grows : forall w w' i (s : list F) x, (w <= w')%nat -> In x (window_at w i s) -> In x (window_at w' i s).
Proof.
  intros w w' i s x H I. unfold window_at in *. replace (S i - w)%nat with ((S i - w - (S i - w')) + (S i - w'))%nat in I by lia.
  rewrite <- skipn_skipn' in I. rewrite <- (firstn_skipn (S i - w - (S i - w'))). apply in_or_app. now right.
Qed.
Lemma max_wider : forall w w' m m' (s r r' : list F), (w <= w')%Z -> rolling w m agg_max s = Ok r -> rolling w' m' agg_max s = Ok r' -> lower r r'.
Proof.
  intros w w' m m' s r r' W E E'. pose proof (len_rolling _ _ _ _ _ E) as L. pose proof (len_rolling _ _ _ _ _ E') as L'.
  apply (nth_lower [] [] []); [now split|lia|]. intros i Hi. rewrite (nth_roll _ _ _ _ _ _ E), (nth_roll _ _ _ _ _ _ E') by lia. intros N N'.
  apply aggmax_spec in N as N1. apply aggmax_spec in N' as N2. apply N2; auto. eapply window_grows; [|apply N1]. lia.
Qed.
Lemma min_wider : forall w w' m m' (s r r' : list F), (w <= w')%Z -> rolling w m agg_min s = Ok r -> rolling w' m' agg_min s = Ok r' -> lower r' r.
Proof.
  intros w w' m m' s r r' W E E'. pose proof (len_rolling _ _ _ _ _ E) as L. pose proof (len_rolling _ _ _ _ _ E') as L'.
  apply (nth_lower [] [] []); [now split|lia|]. intros i Hi. rewrite (nth_roll _ _ _ _ _ _ E), (nth_roll _ _ _ _ _ _ E') by lia. intros N' N.
  apply aggmin_spec in N as N1. apply aggmin_spec in N' as N2. apply N2; auto. eapply window_grows; [|apply N1]. lia.
Qed.
Lemma dc_wider : forall (h l c : list F) w w' o hb hb' lb lb', (w <= w')%Z ->
  donchian_channel_hband h l c w o false = Ok hb -> donchian_channel_hband h l c w' o false = Ok hb' ->
  donchian_channel_lband h l c w o false = Ok lb -> donchian_channel_lband h l c w' o false = Ok lb' -> lower hb hb' /\ lower lb' lb.
Proof.
  intros h l c w w' o hb hb' lb lb' W. unfold donchian_channel_hband, donchian_channel_lband, donchian_run.
  destruct (rolling w _ agg_max h) as [a|] eqn:Ea; [|discriminate]. destruct (rolling w _ agg_min l) as [b|] eqn:Eb; [|discriminate].
  destruct (rolling w' _ agg_max h) as [a'|] eqn:Ea'; [|discriminate]. destruct (rolling w' _ agg_min l) as [b'|] eqn:Eb'; [|discriminate].
  cbn. intros E1 E2 E3 E4. injection E1 as <-. injection E2 as <-. injection E3 as <-. injection E4 as <-.
  split; apply lower_offset; [eapply max_wider|eapply min_wider]; eauto.
Qed.

(** ** break-outs *)
Definition signal (up : bool) (c band : F) : F := if up then (if band <.? c then #1 else #0) else (if c <.? band then #1 else #0).
Lemma signal_wider : forall (up : bool) (c x y : F), (if up then fle x y else fle y x) -> signal up c y = #1 -> signal up c x = #1.
Proof.
  intros up c x y L E. assert (D : (#0 : F) <> #1).
  { intros H. pose proof (ltZ 0 1 ltac:(lia) ltac:(lia) ltac:(lia)) as Lt. rewrite H in Lt. apply flt_fle in Lt as [L1 L2]. contradiction. }
  destruct up; unfold signal in *.
  - destruct (y <.? c) eqn:Q; [|now apply D in E]. assert (flt x c) as -> by (eapply le_lt_trans; [exact L|exact Q]). reflexivity.
  - destruct (c <.? y) eqn:Q; [|now apply D in E]. assert (flt c x) as -> by (eapply lt_le_trans; [exact Q|exact L]). reflexivity.
Qed.
Lemma signals_wider : forall (up : bool) (c b b' : list F) i x, (if up then lower b b' else lower b' b) ->
  nth_error b i = Some x -> Order.num x -> nth_error (map2 (signal up) c b') i = Some (#1) -> nth_error (map2 (signal up) c b) i = Some (#1).
Proof.
  intros up c. induction c as [|y c IH]; intros b b' i x L E N S; [destruct i; discriminate|].
  destruct b' as [|z b']; [destruct i; discriminate|]. destruct b as [|x0 b]; [destruct i; discriminate|].
  assert (L' : (if up then lower b b' else lower b' b) /\ (Order.num x0 -> Order.num z -> if up then fle x0 z else fle z x0)).
  { destruct up; inversion L; subst; auto. }
  destruct L' as [L1 L2]. destruct i as [|i]; cbn [map2 nth_error] in *; [|now apply (IH b b' i x)].
  injection E as ->. injection S as S. f_equal. apply (signal_wider up y x z); auto. apply L2; auto.
  assert (D : (#0 : F) <> #1).
  { intros H. pose proof (ltZ 0 1 ltac:(lia) ltac:(lia) ltac:(lia)) as Lt. rewrite H in Lt. apply flt_fle in Lt as [M1 M2]. contradiction. }
  destruct up; unfold signal in S.
  - destruct (z <.? y) eqn:Q; [|now apply D in S]. apply flt_fle in Q as [Q _]. now apply fle_num in Q.
  - destruct (y <.? z) eqn:Q; [|now apply D in S]. apply flt_fle in Q as [Q _]. now apply fle_num in Q.
Qed.
End Nest.

(** ** at the machine numbers *)
Lemma num_is : forall x : float, PrimFloat.is_nan x = false -> Order.num x. Proof. auto. Qed.
Theorem bollinger_wider : forall w d d' rows h h' l l', PrimFloat.leb d d' = true ->
  compute (BbH w d) false rows = Ok h -> compute (BbH w d') false rows = Ok h' ->
  compute (BbL w d) false rows = Ok l -> compute (BbL w d') false rows = Ok l' -> Forall2 below h h' /\ Forall2 below l' l.
Proof. intros w d d' rows h h' l l' D E1 E2 E3 E4. change (fle d d') in D. destruct (bb_wider _ _ _ _ _ _ _ _ D E1 E2 E3 E4). split; now apply lower_below. Qed.
Theorem keltner_wider : forall w wa k k' rows h h' l l', PrimFloat.leb k k' = true -> (1 <= wa)%Z -> (100 * wa <= 2 ^ 53)%Z -> Forall low_high rows ->
  compute (KcH w wa false k) false rows = Ok h -> compute (KcH w wa false k') false rows = Ok h' ->
  compute (KcL w wa false k) false rows = Ok l -> compute (KcL w wa false k') false rows = Ok l' -> Forall2 below h h' /\ Forall2 below l' l.
Proof.
  intros w wa k k' rows h h' l l' D W W' H E1 E2 E3 E4. change (fle k k') in D. destruct (lens_rows rows) as [L1 L2]. assert (W2 : (1 <= wa < 2 ^ 63)%Z) by lia.
  destruct (kc_wider _ _ _ _ _ _ _ _ _ _ _ D W2 L2 L1 (rows_ranged _ H) E1 E2 E3 E4). split; now apply lower_below.
Qed.
Theorem donchian_wider : forall w w' o rows h h' l l', (w <= w')%Z ->
  compute (DcH w o) false rows = Ok h -> compute (DcH w' o) false rows = Ok h' ->
  compute (DcL w o) false rows = Ok l -> compute (DcL w' o) false rows = Ok l' -> Forall2 below h h' /\ Forall2 below l' l.
Proof. intros w w' o rows h h' l l' W E1 E2 E3 E4. destruct (dc_wider (map b_high rows) (map b_low rows) (map b_close rows) _ _ _ _ _ _ _ W E1 E2 E3 E4). split; now apply lower_below. Qed.

Theorem bollinger_signals_wider : forall w d d' rows h l sh sh' sl sl' i x y, PrimFloat.leb d d' = true ->
  compute (BbH w d) false rows = Ok h -> compute (BbL w d) false rows = Ok l ->
  compute (BbHI w d) false rows = Ok sh -> compute (BbHI w d') false rows = Ok sh' ->
  compute (BbLI w d) false rows = Ok sl -> compute (BbLI w d') false rows = Ok sl' ->
  nth_error h i = Some x -> PrimFloat.is_nan x = false -> nth_error l i = Some y -> PrimFloat.is_nan y = false ->
  (nth_error sh' i = Some 1%float -> nth_error sh i = Some 1%float) /\ (nth_error sl' i = Some 1%float -> nth_error sl i = Some 1%float).
Proof.
  intros w d d' rows h l sh sh' sl sl' i x y D Eh El Esh Esh' Esl Esl' Hx Nx Hy Ny. change (fle d d') in D.
  cbn [compute] in *. unfold bollinger_hband, bollinger_lband, bollinger_hband_indicator, bollinger_lband_indicator in *.
  pose proof (bb_wider (map b_close rows) w d d') as B. unfold bollinger_hband, bollinger_lband in B.
  destruct (bollinger_run _ w d false) as [st|]; [|discriminate]. destruct (bollinger_run _ w d' false) as [st'|]; [|discriminate]. cbn [bind check_fillna] in *.
  destruct (B _ _ _ _ D eq_refl eq_refl eq_refl eq_refl) as [B1 B2].
  injection Eh as <-. injection El as <-. injection Esh as <-. injection Esh' as <-. injection Esl as <-. injection Esl' as <-. rewrite z1. split.
  - exact (signals_wider true _ _ _ i x B1 Hx (num_is _ Nx)).
  - exact (signals_wider false _ _ _ i y B2 Hy (num_is _ Ny)).
Qed.
Theorem keltner_signals_wider : forall w wa k k' rows h l sh sh' sl sl' i x y, PrimFloat.leb k k' = true ->
  (1 <= wa)%Z -> (100 * wa <= 2 ^ 53)%Z -> Forall low_high rows ->
  compute (KcH w wa false k) false rows = Ok h -> compute (KcL w wa false k) false rows = Ok l ->
  compute (KcHI w wa false k) false rows = Ok sh -> compute (KcHI w wa false k') false rows = Ok sh' ->
  compute (KcLI w wa false k) false rows = Ok sl -> compute (KcLI w wa false k') false rows = Ok sl' ->
  nth_error h i = Some x -> PrimFloat.is_nan x = false -> nth_error l i = Some y -> PrimFloat.is_nan y = false ->
  (nth_error sh' i = Some 1%float -> nth_error sh i = Some 1%float) /\ (nth_error sl' i = Some 1%float -> nth_error sl i = Some 1%float).
Proof.
  intros w wa k k' rows h l sh sh' sl sl' i x y D W W' H Eh El Esh Esh' Esl Esl' Hx Nx Hy Ny. change (fle k k') in D. destruct (lens_rows rows) as [L1 L2].
  assert (W2 : (1 <= wa < 2 ^ 63)%Z) by lia. pose proof (fun a b c d => kc_wider _ _ _ w wa k k' a b c d D W2 L2 L1 (rows_ranged _ H)) as B.
  cbn [compute] in *. unfold keltner_channel_hband, keltner_channel_lband, keltner_channel_hband_indicator, keltner_channel_lband_indicator in *.
  destruct (keltner_run _ _ _ w wa false false k) as [st|]; [|discriminate]. destruct (keltner_run _ _ _ w wa false false k') as [st'|]; [|discriminate]. cbn [bind check_fillna] in *.
  destruct (B _ _ _ _ eq_refl eq_refl eq_refl eq_refl) as [B1 B2].
  injection Eh as <-. injection El as <-. injection Esh as <-. injection Esh' as <-. injection Esl as <-. injection Esl' as <-. rewrite z1. split.
  - exact (signals_wider true _ _ _ i x B1 Hx (num_is _ Nx)).
  - exact (signals_wider false _ _ _ i y B2 Hy (num_is _ Ny)).
Qed.
