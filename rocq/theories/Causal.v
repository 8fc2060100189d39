(** * Causal: every operation commutes with taking a prefix (C02, C03). *)
From Verif Require Import Lists Api Align SpecCausal.

Section Prefix.
Context {F : Type} {A : Arith F}.

Lemma pf_map : forall {B C} (f : B -> C) k l, map f (firstn k l) = firstn k (map f l).
Proof. intros. symmetry. apply firstn_map. Qed.
Lemma pf_sadd : forall k (l m : list F), sadd (firstn k l) (firstn k m) = firstn k (sadd l m).
Proof. intros; apply firstn_map2. Qed.
Lemma pf_ssub : forall k (l m : list F), ssub (firstn k l) (firstn k m) = firstn k (ssub l m).
Proof. intros; apply firstn_map2. Qed.
Lemma pf_smul : forall k (l m : list F), smul (firstn k l) (firstn k m) = firstn k (smul l m).
Proof. intros; apply firstn_map2. Qed.
Lemma pf_sdiv : forall k (l m : list F), sdiv (firstn k l) (firstn k m) = firstn k (sdiv l m).
Proof. intros; apply firstn_map2. Qed.
Lemma pf_scal : forall k c (l : list F), scal c (firstn k l) = firstn k (scal c l).
Proof. intros; apply pf_map. Qed.
Lemma pf_divs : forall k c (l : list F), divs (firstn k l) c = firstn k (divs l c).
Proof. intros; apply pf_map. Qed.
Lemma pf_subs : forall k c (l : list F), subs (firstn k l) c = firstn k (subs l c).
Proof. intros; apply pf_map. Qed.
Lemma pf_muls : forall k c (l : list F), muls (firstn k l) c = firstn k (muls l c).
Proof. intros; apply pf_map. Qed.

Lemma shift_fill_pos : forall n x (s : list F), (0 <= n)%Z ->
  shift_fill n x s = firstn (length s) (repeat x (Z.to_nat n) ++ s).
Proof.
  intros. unfold shift_fill. rewrite (proj2 (Z.leb_le 0 n)) by auto.
  rewrite firstn_app, firstn_repeat, repeat_length.
  destruct (Nat.le_gt_cases (Z.to_nat n) (length s)).
  - rewrite !Nat.min_l, Nat.min_r by lia. auto.
  - rewrite !Nat.min_r, Nat.min_l by lia. now replace (length s - Z.to_nat n) with (length s - length s) by lia.
Qed.

Lemma pf_shift_fill : forall k n x (s : list F), (0 <= n)%Z ->
  shift_fill n x (firstn k s) = firstn k (shift_fill n x s).
Proof.
  intros. rewrite !shift_fill_pos by auto. rewrite firstn_firstn, firstn_length.
  rewrite !firstn_app, !firstn_firstn, !firstn_repeat, repeat_length. f_equal. f_equal; lia.
Qed.
Lemma pf_shift1 : forall k (s : list F), shift 1 (firstn k s) = firstn k (shift 1 s).
Proof. intros. apply pf_shift_fill. lia. Qed.
Lemma pf_diff1 : forall k (s : list F), diff1 (firstn k s) = firstn k (diff1 s).
Proof. intros. unfold diff1. now rewrite pf_shift1, pf_ssub. Qed.

Lemma pf_true_range : forall k (h l c : list F),
  true_range (firstn k h) (firstn k l) (firstn k c) = firstn k (true_range h l c).
Proof. intros. unfold true_range. now rewrite !pf_ssub, !pf_map, firstn_map3. Qed.

Lemma pf_prep : forall k (s : list F), prep (firstn k s) = firstn k (prep s).
Proof. intros; apply pf_map. Qed.

Lemma window_at_firstn : forall w i k (s : list F), i < k ->
  window_at w i (firstn k s) = window_at w i s.
Proof. intros. unfold window_at. rewrite firstn_firstn. now rewrite Nat.min_l by lia. Qed.

Lemma pf_run : forall S put take (st : S) k w (s : list F), run put take st w (firstn k s) = firstn k (run put take st w s).
Proof.
  intros. unfold run. unfold shift. rewrite pf_shift_fill by lia. generalize (shift_fill (Z.of_nat w) fnan s). revert s st.
  induction k; intros; [reflexivity|]. destruct l; [reflexivity|]. destruct s; [reflexivity|]. cbn [firstn run_go]. f_equal. apply IHk.
Qed.
Lemma pf_roll_rows : forall k w m agg (p : list F), roll_rows w m agg (firstn k p) = firstn k (roll_rows w m agg p).
Proof.
  intros. destruct agg; cbn [roll_rows]; rewrite ?pf_run, firstn_length, <- firstn_seq; rewrite ?firstn_map, <- ?firstn_map2.
  4: { rewrite firstn_seq. apply map_ext_seq. intros. now rewrite window_at_firstn by lia. }
  all: apply map2_ext_in_l; intros i st Hi; apply in_firstn_seq in Hi; now rewrite window_at_firstn.
Qed.
Lemma pf_rolling : forall k w m agg (s : list F),
  rolling w m agg (firstn k s) = rmap (firstn k) (rolling w m agg s).
Proof. intros. unfold rolling. destruct (_ || _); [reflexivity|]. cbn [rmap]. now rewrite pf_prep, pf_roll_rows. Qed.

Lemma pf_ewm_go : forall k s al m n a (o : F),
  ewm_go al m n a o (firstn k s) = firstn k (ewm_go al m n a o s).
Proof.
  induction k; intros; [reflexivity|]. destruct s; [reflexivity|].
  cbn [firstn ewm_go]. destruct (if negb (fisnan a) then _ else _). cbn [firstn].
  f_equal. apply IHk.
Qed.
Lemma pf_ewm_com : forall k c m (s : list F), ewm_com c m (firstn k s) = firstn k (ewm_com c m s).
Proof. intros. unfold ewm_com. now rewrite pf_prep, pf_ewm_go. Qed.
Lemma pf_ewm_span : forall k w m (s : list F),
  ewm_span w m (firstn k s) = rmap (firstn k) (ewm_span w m s).
Proof.
  intros. unfold ewm_span. destruct (_ <? _)%Z; [reflexivity|]. cbn. f_equal. apply pf_ewm_com.
Qed.
Lemma pf_ewm_inv : forall k w m (s : list F),
  ewm_inv_alpha w m (firstn k s) = rmap (firstn k) (ewm_inv_alpha w m s).
Proof.
  intros. unfold ewm_inv_alpha. destruct (_ =? _)%Z; [reflexivity|].
  destruct (_ <? _)%Z; [reflexivity|]. cbn. f_equal. apply pf_ewm_com.
Qed.
Lemma pf_cumsum : forall k (s : list F), cumsum (firstn k s) = firstn k (cumsum s).
Proof.
  unfold cumsum. intros k s. generalize (fofZ 0). revert s.
  induction k; intros; [reflexivity|]. destruct s; [reflexivity|].
  simpl. destruct (fisnan f0); cbn [firstn]; f_equal; apply IHk.
Qed.
Lemma pf_ffill : forall k (s : list F), ffill (firstn k s) = firstn k (ffill s).
Proof.
  unfold ffill. intros k s. generalize fnan. revert s.
  induction k; intros; [reflexivity|]. destruct s; [reflexivity|].
  simpl. f_equal; apply IHk.
Qed.
Lemma pf_fill_const : forall k v (s : list F), fillna_const v (firstn k s) = firstn k (fillna_const v s).
Proof. intros; apply pf_map. Qed.
Lemma pf_pct : forall k (s : list F), pct_change (firstn k s) = firstn k (pct_change s).
Proof. intros. unfold pct_change. now rewrite pf_ffill, pf_shift1, pf_sdiv, pf_subs. Qed.
Lemma pf_check : forall k b z (s : list F), (b = false \/ z <> -1)%Z ->
  check_fillna b (FillInt z) (firstn k s) = firstn k (check_fillna b (FillInt z) s).
Proof.
  intros. unfold check_fillna. destruct b; [|reflexivity].
  destruct H; [discriminate|]. rewrite (proj2 (Z.eqb_neq z (-1))) by auto.
  unfold replace_inf. now rewrite pf_map, pf_ffill, pf_fill_const.
Qed.
Lemma pf_kama_go : forall k sc (c : list F) b p,
  kama_go (firstn k sc) (firstn k c) b p = firstn k (kama_go sc c b p).
Proof.
  induction k; intros; [reflexivity|]. destruct sc, c; try reflexivity.
  simpl. destruct (fisnan f); [|destruct b]; cbn [firstn]; f_equal; apply IHk.
Qed.
Lemma pf_nvi_go : forall k p c vp (v : list F),
  nvi_go p (firstn k c) (firstn k vp) (firstn k v) = firstn k (nvi_go p c vp v).
Proof.
  induction k; intros; [reflexivity|]. destruct c, vp, v; try reflexivity.
  simpl. f_equal; apply IHk.
Qed.
Lemma pf_atr_go : forall k w p (t : list F), atr_go w p (firstn k t) = firstn k (atr_go w p t).
Proof. induction k; intros; [reflexivity|]. destruct t; try reflexivity. simpl. f_equal; apply IHk. Qed.
Lemma pf_adx_go : forall k w p (t : list F), adx_go w p (firstn k t) = firstn k (adx_go w p t).
Proof. induction k; intros; [reflexivity|]. destruct t; try reflexivity. simpl. f_equal; apply IHk. Qed.
Lemma pf_smooth_go : forall k w p (t : list F),
  adx_smooth_go w p (firstn k t) = firstn k (adx_smooth_go w p t).
Proof. induction k; intros; [reflexivity|]. destruct t; try reflexivity. simpl. f_equal; apply IHk. Qed.
Lemma pf_donchian_offset : forall k o (s : list F), (0 <= o)%Z ->
  donchian_offset o (firstn k s) = firstn k (donchian_offset o s).
Proof. intros. unfold donchian_offset. destruct (negb _); auto. now apply pf_shift_fill. Qed.
Lemma pf_psar_indicator : forall k (u s : list F),
  psar_indicator (firstn k u) (firstn k s) = firstn k (psar_indicator u s).
Proof. intros. unfold psar_indicator. now rewrite pf_shift1, !firstn_map2, pf_map. Qed.

End Prefix.

(** one rewriting step pushing a prefix outwards *)
Ltac pf_step :=
  first [ rewrite pf_map | rewrite pf_sadd | rewrite pf_ssub | rewrite pf_smul | rewrite pf_sdiv
        | rewrite pf_scal | rewrite pf_divs | rewrite pf_subs | rewrite pf_muls
        | rewrite pf_diff1 | rewrite pf_shift1 | rewrite pf_true_range | rewrite pf_pct
        | rewrite pf_cumsum | rewrite pf_fill_const | rewrite pf_kama_go
        | rewrite firstn_map2 | rewrite firstn_map3
        | rewrite pf_check by (first [assumption | right; lia | left; reflexivity])
        | rewrite pf_shift_fill by lia | rewrite pf_donchian_offset by lia
        | unfold shift; rewrite pf_shift_fill by lia
        | rewrite pf_rolling | rewrite pf_ewm_span | rewrite pf_ewm_inv ].

Ltac pf_destr :=
  match goal with
  | |- context [rmap _ (rolling ?w ?m ?a ?s)] => destruct (rolling w m a s); cbn [bind rmap]; [|reflexivity]
  | |- context [rmap _ (ewm_span ?w ?m ?s)] => destruct (ewm_span w m s); cbn [bind rmap]; [|reflexivity]
  | |- context [rmap _ (ewm_inv_alpha ?w ?m ?s)] => destruct (ewm_inv_alpha w m s); cbn [bind rmap]; [|reflexivity]
  end.
Ltac pf := repeat first [reflexivity | progress cbn [bb_mavg bb_hband bb_lband kc_tp kc_high kc_low] | progress pf_destr | pf_step].

Section Main.
Context {F : Type} {A : Arith F}.

Ltac start ind := intros k fl rows; unfold compute; rewrite !pf_map.

Lemma atr_prefix : forall k h l c w b r r', length h = length c -> length l = length c ->
  k <= length c -> (0 < w)%Z ->
  @average_true_range F A h l c w b = Ok r' ->
  average_true_range (firstn k h) (firstn k l) (firstn k c) w b = Ok r ->
  r = firstn k r'.
Proof.
  intros k h l c w b r r' Hh Hl Hk Hw H' H. unfold average_true_range in *.
  destruct (Z.leb_spec w 0); [lia|].
  rewrite firstn_length, Nat.min_l in H by lia.
  destruct (Nat.ltb_spec (length c) (Z.to_nat w)); [discriminate|].
  destruct (Nat.ltb_spec k (Z.to_nat w)); [discriminate|].
  rewrite pf_shift1, pf_true_range, firstn_firstn, Nat.min_l in H by lia.
  revert H H'. generalize (true_range h l (shift 1 c)) as tr. intros tr H H'.
  inversion H; clear H; inversion H'; clear H'; subst.
  rewrite <- pf_check by (right; lia). f_equal.
  rewrite firstn_app, repeat_length, firstn_repeat, Nat.min_r by lia. f_equal.
  replace (k - (Z.to_nat w - 1)) with (S (k - Z.to_nat w)) by lia. cbn [firstn]. f_equal.
  rewrite <- pf_atr_go. f_equal. now rewrite firstn_skipn_comm; replace (Z.to_nat w + (k - Z.to_nat w)) with k by lia.
Qed.

(** indicators whose success does not depend on the number of rows *)
Definition uniform (ind : indicator F) : bool :=
  match ind with
  | Atr _ | CumReturn | Nvi | AroonUp _ | AroonDown _ | AroonInd _ => false
  | KcM _ _ o _ | KcH _ _ o _ | KcL _ _ o _ | KcW _ _ o _ | KcP _ _ o _ | KcHI _ _ o _
  | KcLI _ _ o _ => o
  | _ => window_based ind || recursive_based ind
  end.

Lemma pf_rsi : forall k (c : list F) w fl, rsi (firstn k c) w fl = rmap (firstn k) (rsi c w fl).
Proof. intros. unfold rsi, rsi_run. pf. Qed.

Lemma uniform_prefix : forall ind k fl rows, uniform ind = true ->
  fl = false \/ fills_backward ind = false ->
  compute ind fl (firstn k rows) = rmap (firstn k) (compute ind fl rows).
Proof.
  intros ind k fl rows Hu Hf.
  destruct ind; try discriminate Hu; cbn [uniform window_based recursive_based orb] in Hu;
    try (destruct Hf as [Hf|Hf]; [subst fl|discriminate Hf]);
    unfold compute; rewrite !pf_map; unf_ind; unf_run; subst;
    try (apply orb_true_iff in Hu; destruct Hu as [Hu|Hu]; try discriminate Hu);
    try apply Z.leb_le in Hu;
    try (destruct visual; try discriminate Hu);
    try (destruct original_version; try discriminate Hu);
    try (destruct dropnans; try discriminate Hu);
    try (destruct smoothing_factor as [z|]; cbn [bind]; [destruct (z =? 0)%Z; cbn [bind]|]);
    cbn [bb_mavg bb_hband bb_lband kc_tp kc_high kc_low];
    try solve [pf].
  all: rewrite pf_rsi; destruct (rsi (map b_close rows) window fl); cbn [bind rmap]; [|reflexivity]; pf.
Qed.

Definition prefix_ok (ind : indicator F) (fl : bool) : Prop :=
  forall k rows out out', k <= length rows -> compute ind fl rows = Ok out' ->
    compute ind fl (firstn k rows) = Ok out -> out = firstn k out'.

Lemma prefix_ok_no_lookahead : forall ind fl, prefix_ok ind fl -> no_lookahead (compute ind fl).
Proof.
  intros ind fl H rows more out out' H1 H2. symmetry.
  eapply H; [|exact H2|].
  - rewrite app_length. lia.
  - rewrite firstn_app, Nat.sub_diag, firstn_all. cbn [firstn]. now rewrite app_nil_r.
Qed.

Lemma uniform_prefix_ok : forall ind fl, uniform ind = true ->
  fl = false \/ fills_backward ind = false -> prefix_ok ind fl.
Proof.
  intros ind fl Hu Hf k rows out out' Hk H1 H2.
  rewrite (uniform_prefix ind k fl rows Hu Hf), H1 in H2. now inversion H2.
Qed.

Lemma aroon_run_prefix : forall k h l w fl u d u' d',
  @aroon_run F A h l w fl = Ok (u', d') ->
  aroon_run (firstn k h) (firstn k l) w fl = Ok (u, d) -> u = firstn k u' /\ d = firstn k d'.
Proof.
  intros k h l w fl u d u' d' H' H. unfold aroon_run in H, H'.
  rewrite !pf_rolling in H.
  destruct (rolling _ _ _ h); cbn [bind rmap] in *; [|discriminate].
  destruct (rolling _ _ _ l); cbn [bind rmap] in *; [|discriminate].
  destruct (_ && _); [discriminate|]. destruct (_ && _); [discriminate|].
  destruct (_ && _); [discriminate|]. destruct (_ && _); [discriminate|].
  inversion H; inversion H'; subst; auto.
Qed.

Lemma pf_nvi_go' : forall k p c vp (v : list F),
  nvi_go p (firstn k c) (firstn (S k) vp) (firstn k v) = firstn k (nvi_go p c vp v).
Proof.
  induction k; intros; [reflexivity|]. destruct c, vp, v; try reflexivity.
  change (firstn (S (S k)) (f0 :: vp)) with (f0 :: firstn (S k) vp).
  cbn [nvi_go]. change (firstn (S k) (f :: c)) with (f :: firstn k c).
  change (firstn (S k) (f1 :: v)) with (f1 :: firstn k v). cbn [nvi_go]. rewrite IHk. reflexivity.
Qed.

Lemma nvi_prefix : forall k c v fl r r', length v = length c ->
  @negative_volume_index F A c v fl = Ok r' ->
  negative_volume_index (firstn k c) (firstn k v) fl = Ok r -> r = firstn k r'.
Proof.
  intros k c v fl r r' Hl H' H. unfold negative_volume_index in H, H'.
  destruct c as [|c0 c]; [discriminate|]. destruct k; [discriminate|].
  change (firstn (S k) (c0 :: c)) with (c0 :: firstn k c) in H. cbn iota in H.
  change (pct_change (c0 :: firstn k c)) with (pct_change (firstn (S k) (c0 :: c))) in H.
  rewrite pf_pct in H. remember (pct_change (c0 :: c)) as pc.
  destruct v as [|v0 v]; [discriminate|].
  change (tl (firstn (S k) (v0 :: v))) with (firstn k v) in H.
  assert (Et : tl (firstn (S k) pc) = firstn k (tl pc)) by (destruct pc; [now rewrite firstn_nil|reflexivity]).
  rewrite Et in H.
  assert (Ev : nvi_go (fofZ 1000) (firstn k (tl pc)) (firstn (S k) (v0 :: v)) (firstn k v)
     = firstn k (nvi_go (fofZ 1000) (tl pc) (v0 :: v) v)).
  { apply pf_nvi_go'. }
  rewrite Ev in H. inversion H; clear H; subst r. inversion H'; clear H'; subst r'.
  rewrite <- pf_check by (right; lia). reflexivity.
Qed.

Lemma cumret_prefix : forall k c r r', @cumulative_return F A c false = Ok r' ->
  cumulative_return (firstn k c) false = Ok r -> r = firstn k r'.
Proof.
  intros k c r r' H' H. unfold cumulative_return in *. destruct c as [|c0 c]; [discriminate|].
  destruct k; [discriminate|]. cbn [firstn] in H.
  change (c0 :: firstn k c) with (firstn (S k) (c0 :: c)) in H.
  rewrite pf_divs, pf_subs, pf_muls in H. cbn [check_fillna] in *.
  injection H as <-. injection H' as <-. reflexivity.
Qed.

(** Keltner channel around the EMA: three series of the state *)
Lemma keltner_ema_prefix : forall k h l c w a fl m st st',
  length h = length c -> length l = length c -> k <= length c -> (0 < a)%Z ->
  @keltner_run F A h l c w a fl false m = Ok st' ->
  keltner_run (firstn k h) (firstn k l) (firstn k c) w a fl false m = Ok st ->
  kc_tp st = firstn k (kc_tp st') /\ kc_high st = firstn k (kc_high st') /\
  kc_low st = firstn k (kc_low st').
Proof.
  intros k h l c w a fl m st st' Hh Hl Hk Ha H' H. unfold keltner_run in *.
  rewrite pf_ewm_span in H. destruct (ewm_span _ _ c); cbn [bind rmap] in *; [|discriminate].
  destruct (average_true_range h l c a fl) eqn:E1; cbn [bind] in *; [|discriminate].
  destruct (average_true_range (firstn k h) _ _ a fl) eqn:E2; cbn [bind] in *; [|discriminate].
  rewrite (atr_prefix _ _ _ _ _ _ _ _ Hh Hl Hk Ha E1 E2) in H.
  inversion H; inversion H'; subst; cbn.
  now rewrite pf_scal, pf_sadd, pf_ssub.
Qed.

Lemma window_based_prefix_ok : forall ind fl, window_based ind = true ->
  fl = false \/ fills_backward ind = false -> prefix_ok ind fl.
Proof.
  intros ind fl Hw Hf. destruct (uniform ind) eqn:Hu; [now apply uniform_prefix_ok|].
  intros k rows out out' Hk H' H.
  assert (Lh := map_length b_high rows). assert (Ll := map_length b_low rows).
  assert (Lc := map_length b_close rows).
  destruct ind; cbn [window_based uniform recursive_based orb] in Hw, Hu; try discriminate;
    rewrite ?Hw in Hu; try discriminate;
    cbn [fills_backward] in Hf; try (destruct Hf as [Hf|Hf]; [subst fl|discriminate Hf]);
    cbn [compute] in H, H'; rewrite ?pf_map in H;
    try (destruct original_version; [discriminate Hu|]).
  1-3: unfold aroon_up, aroon_down, aroon_indicator in *; 
    destruct (aroon_run (firstn k _) _ _ _) as [[u d]|] eqn:E; [|discriminate H];
    destruct (aroon_run (map b_high rows) _ _ _) as [[u' d']|] eqn:E'; [|discriminate H'];
    destruct (aroon_run_prefix _ _ _ _ _ _ _ _ _ E' E) as [-> ->];
    cbn [bind] in *; inversion H; inversion H'; subst;
    rewrite ?pf_ssub, pf_check by (right; lia); reflexivity.
  1-7: unfold keltner_channel_mband, keltner_channel_hband, keltner_channel_lband,
     keltner_channel_wband, keltner_channel_pband, keltner_channel_hband_indicator,
     keltner_channel_lband_indicator in *;
    destruct (keltner_run (firstn k _) _ _ _ _ _ _ _) as [st|] eqn:E; [|discriminate H];
    destruct (keltner_run (map b_high rows) _ _ _ _ _ _ _) as [st'|] eqn:E'; [|discriminate H'];
    destruct (keltner_ema_prefix _ _ _ _ _ _ _ _ _ _ (eq_trans Lh (eq_sym Lc))
       (eq_trans Ll (eq_sym Lc)) (eq_ind_r (fun n => k <= n) Hk Lc) (proj1 (Z.ltb_lt _ _) Hw) E' E) as (E1 & E2 & E3);
    cbn [bind] in *; inversion H; inversion H'; subst; rewrite ?E1, ?E2, ?E3; pf.
  eapply cumret_prefix; eauto.
Qed.

Lemma recursive_based_prefix_ok : forall ind fl, recursive_based ind = true -> prefix_ok ind fl.
Proof.
  intros ind fl Hw. destruct (uniform ind) eqn:Hu.
  - apply uniform_prefix_ok; auto. right. destruct ind; try reflexivity; discriminate.
  - intros k rows out out' Hk H' H.
    assert (Lh := map_length b_high rows). assert (Ll := map_length b_low rows).
    assert (Lc := map_length b_close rows). assert (Lv := map_length b_volume rows).
    destruct ind; cbn [window_based uniform recursive_based orb] in Hw, Hu; try discriminate;
      rewrite ?Hw in Hu; try discriminate; cbn [compute] in H, H'; rewrite ?pf_map in H.
    + eapply atr_prefix; [| | | |exact H'|exact H]; lia.
    + eapply nvi_prefix; [|exact H'|exact H]; lia.
Qed.
End Main.
