(** * Memory: lemmas for C73 *)
From Verif Require Import Lists Api Align Rows SpecMemory.

Section Memory.
Context {F : Type} {A : Arith F}.

(** [s'] continues [s] ([n] rows) to the past by [k] rows; equal from row [m] of [s] on *)
Definition agree (n k m : nat) (s s' : list F) : Prop :=
  length s = n /\ length s' = k + n /\
  forall i, m <= i -> i < n -> nth (k + i) s' fnan = nth i s fnan.
Definition agr (n k m : nat) (r r' : result (list F)) : Prop :=
  forall out out', r = Ok out -> r' = Ok out' -> agree n k m out out'.

Lemma ag_weak : forall n k m m' s s', agree n k m s s' -> m <= m' -> agree n k m' s s'.
Proof. intros n k m m' s s' (L & L' & H) Hm. split; auto. split; auto. intros. apply H; lia. Qed.
Lemma ag_map : forall (f : F -> F) n k m s s', agree n k m s s' -> agree n k m (map f s) (map f s').
Proof.
  intros f n k m s s' (L & L' & H). split; [now rewrite map_length|]. split; [now rewrite map_length|]. intros i Hm Hi.
  rewrite (nth_indep _ _ (f fnan)), map_nth by (rewrite map_length; lia).
  rewrite (nth_indep (map f s) _ (f fnan)), map_nth by (rewrite map_length; lia). f_equal. auto.
Qed.
Lemma ag_map2 : forall (f : F -> F -> F) n k a b s s' t t', agree n k a s s' -> agree n k b t t' ->
  agree n k (Nat.max a b) (map2 f s t) (map2 f s' t').
Proof.
  intros f n k a b s s' t t' (L & L' & H) (M & M' & H'). split; [rewrite length_map2; lia|]. split; [rewrite length_map2; lia|].
  intros i Hm Hi.
  rewrite (nth_map2 f s' t' (k + i) fnan fnan fnan) by lia. rewrite (nth_map2 f s t i fnan fnan fnan) by lia. f_equal; [apply H|apply H']; lia.
Qed.
Lemma ag_map3 : forall (f : F -> F -> F -> F) n k a b c s s' t t' u u', agree n k a s s' -> agree n k b t t' -> agree n k c u u' ->
  agree n k (Nat.max a (Nat.max b c)) (map3 f s t u) (map3 f s' t' u').
Proof.
  intros f n k a b c s s' t t' u u' (L & L' & H) (M & M' & H') (N & N' & H''). split; [rewrite length_map3; lia|]. split; [rewrite length_map3; lia|].
  assert (G : forall s t u i, i < length s -> i < length t -> i < length u -> nth i (map3 f s t u) fnan = f (nth i s fnan) (nth i t fnan) (nth i u fnan)).
  { clear. induction s as [|x s IH]; intros [|y t] [|z u] [|i]; cbn; intros; try lia; auto. apply IH; lia. }
  intros i Hm Hi. rewrite !G by lia. f_equal; [apply H|apply H'|apply H'']; lia.
Qed.
Lemma ag_shift_fill : forall z x x' n k m s s', (0 <= z)%Z -> agree n k m s s' -> agree n k (m + lag z) (shift_fill z x s) (shift_fill z x' s').
Proof.
  unfold lag. intros z x x' n k m s s' Hn (L & L' & H). split; [now rewrite len_shift_fill|]. split; [now rewrite len_shift_fill|].
  intros i Hm Hi. rewrite !nth_shift_fill_ge by lia. rewrite <- H by lia. f_equal. lia.
Qed.
Lemma ag_shift : forall z n k m s s', agree n k m s s' -> agree n k (m + lag z) (shift z s) (shift z s').
Proof.
  intros z n k m s s' H. destruct (Z.leb_spec 0 z); [now apply ag_shift_fill|]. destruct H as (L & L' & H).
  unfold shift. split; [now rewrite len_shift_fill|]. split; [now rewrite len_shift_fill|]. intros i Hm Hi.
  unfold shift_fill. rewrite (proj2 (Z.leb_gt 0 z)) by lia.
  assert (G : forall j (t : list F) p, nth j (skipn p t ++ repeat fnan p) fnan = nth (p + j) t fnan).
  { intros j t p. destruct (Nat.lt_ge_cases j (length (skipn p t))).
    - now rewrite app_nth1, nth_skipn' by auto.
    - rewrite app_nth2, nth_repeat_any by auto. rewrite skipn_length in *. now rewrite nth_overflow by lia. }
  rewrite !G, L, L'. destruct (Nat.lt_ge_cases (Z.to_nat (- z) + i) n).
  - rewrite !Nat.min_l by lia. rewrite <- H by lia. f_equal. lia.
  - rewrite !nth_overflow; auto; lia.
Qed.
Lemma ag_window : forall w n k m i s s', agree n k m s s' -> m + (w - 1) <= i -> i < n ->
  window_at w (k + i) s' = window_at w i s.
Proof.
  intros w n k m i s s' (L & L' & H) Hi Hl. apply list_eq_nth with (d := fnan).
  - rewrite !length_window_at by lia. lia.
  - intros j Hj. rewrite length_window_at in Hj by lia. rewrite !window_at_nth by lia.
    rewrite <- H by lia. f_equal. lia.
Qed.
Lemma ag_rolling : forall w p agg n k m s s' r r', windowwise agg -> agree n k m s s' -> rolling w p agg s = Ok r -> rolling w p agg s' = Ok r' ->
  agree n k (m + back w) r r'.
Proof.
  intros w p agg n k m s s' r r' Hl H E E'. pose proof (len_rolling _ _ _ _ _ E). pose proof (len_rolling _ _ _ _ _ E').
  destruct H as (L & L' & H). split; [lia|]. split; [lia|]. intros i Hm Hi.
  rewrite (nth_windowwise _ _ _ _ _ _ _ Hl E) by lia. rewrite (nth_windowwise _ _ _ _ _ _ _ Hl E') by lia. f_equal.
  apply ag_window with n m; [apply ag_map; repeat split; auto| |lia]. unfold back in *.
  unfold rolling in E. destruct (_ || _) eqn:B; [discriminate|].
  apply Bool.orb_false_iff in B as [B B1]. apply Z.ltb_ge in B1. lia.
Qed.
Lemma ag_check : forall z n k m s s', agree n k m s s' -> agree n k m (check_fillna false z s) (check_fillna false z s').
Proof. auto. Qed.
Lemma ag_offset : forall z n k m s s', agree n k m s s' -> agree n k (m + lag z) (donchian_offset z s) (donchian_offset z s').
Proof.
  intros. unfold donchian_offset. destruct (Z.eqb_spec z 0); cbn [negb]; [|now apply ag_shift].
  eapply ag_weak; [eassumption|lia].
Qed.
Lemma rolling_neg : forall w p agg (s : list F) (f : list F -> result (list F)) n k m r', (w < 0)%Z -> agr n k m (bind (rolling w p agg s) f) r'.
Proof.
  intros. intros o o' E. unfold rolling in E. rewrite (proj2 (Z.ltb_lt w 0)) in E by auto.
  rewrite Bool.orb_true_r in E. discriminate.
Qed.
Lemma agr_roll : forall w p agg n k m m' s s' (f f' : list F -> result (list F)), windowwise agg -> agree n k m s s' ->
  (forall x x', agree n k (m + back w) x x' -> agr n k m' (f x) (f' x')) ->
  agr n k m' (bind (rolling w p agg s) f) (bind (rolling w p agg s') f').
Proof.
  intros w p agg n k m m' s s' f f' Hl H G. destruct (rolling w p agg s) as [x|] eqn:E; [|discriminate].
  destruct (rolling w p agg s') as [x'|] eqn:E'; [|discriminate]. cbn [bind]. apply G. eapply ag_rolling; eauto.
Qed.
Lemma agr_rolling : forall w p agg n k m s s', windowwise agg -> agree n k m s s' -> agr n k (m + back w) (rolling w p agg s) (rolling w p agg s').
Proof. intros w p agg n k m s s' Hl H o o' E E'. eapply ag_rolling; eauto. Qed.
Lemma agr_ok : forall n k m m' x x', agree n k m x x' -> m <= m' -> agr n k m' (Ok x) (Ok x').
Proof. intros n k m m' x x' H Hm o o' E E'. injection E as <-. injection E' as <-. eapply ag_weak; eauto. Qed.
Lemma agr_weak : forall n k m m' r r', agr n k m r r' -> m <= m' -> agr n k m' r r'.
Proof. intros n k m m' r r' H Hm o o' E E'. eapply ag_weak; eauto. Qed.
Lemma agr_memory : forall (f : list (bar F) -> result (list F)) m, (forall past rows, agr (length rows) (length past) m (f rows) (f (past ++ rows))) ->
  finite_memory m f.
Proof.
  intros f m H past rows out out' E E'. destruct (H past rows out out' E E') as (L & L' & N).
  apply list_eq_nth with (d := fnan).
  - rewrite !skipn_length. lia.
  - intros i Hi. rewrite skipn_length in Hi. rewrite !nth_skipn'.
    rewrite <- N by lia. f_equal. lia.
Qed.
Lemma ag_col : forall (f : bar F -> F) past rows, agree (length rows) (length past) 0 (map f rows) (map f (past ++ rows)).
Proof.
  intros. split; [now rewrite map_length|]. split; [rewrite map_length, app_length; lia|].
  intros i _ Hi. rewrite map_app, app_nth2; rewrite map_length; [|lia].
  f_equal. lia.
Qed.
Lemma bind_assoc : forall {X Y Z} (r : result X) (f : X -> result Y) (g : Y -> result Z),
  bind (bind r f) g = bind r (fun x => bind (f x) g).
Proof. intros. destruct r; reflexivity. Qed.
Lemma rmap_bind : forall {X Y} (f : X -> Y) (r : result X), rmap f r = bind r (fun x => Ok (f x)).
Proof. intros. now destruct r. Qed.
End Memory.

Ltac ww := first [right; exact I|left; assumption].
Ltac ag :=
  lazymatch goal with
  | |- agree _ _ _ (map _ _) (map _ _) => first [apply ag_col | eapply ag_map; ag]
  | |- agree _ _ _ (map2 _ _ _) _ => eapply ag_map2; ag
  | |- agree _ _ _ (map3 _ _ _ _) _ => eapply ag_map3; ag
  | |- agree _ _ _ (sadd _ _) _ => eapply ag_map2; ag
  | |- agree _ _ _ (ssub _ _) _ => eapply ag_map2; ag
  | |- agree _ _ _ (smul _ _) _ => eapply ag_map2; ag
  | |- agree _ _ _ (sdiv _ _) _ => eapply ag_map2; ag
  | |- agree _ _ _ (diff1 _) _ => unfold diff1; ag
  | |- agree _ _ _ (scal _ _) _ => eapply ag_map; ag
  | |- agree _ _ _ (divs _ _) _ => eapply ag_map; ag
  | |- agree _ _ _ (subs _ _) _ => eapply ag_map; ag
  | |- agree _ _ _ (muls _ _) _ => eapply ag_map; ag
  | |- agree _ _ _ (true_range _ _ _) _ => unfold true_range; ag
  | |- agree _ _ _ (shift _ _) _ => eapply ag_shift; ag
  | |- agree _ _ _ (shift_fill _ _ _) _ => eapply ag_shift_fill; [lia|ag]
  | |- agree _ _ _ (donchian_offset _ _) _ => eapply ag_offset; ag
  | |- agree _ _ _ (check_fillna _ _ _) _ => eapply ag_check; ag
  | _ => eassumption
  end.
(** keep the bounds small *)
Ltac simp := change (lag 1) with 1; rewrite ?Nat.max_id, ?Nat.max_0_l, ?Nat.max_0_r, ?Nat.add_0_l, ?Nat.add_0_r.
Ltac simph H := change (lag 1) with 1 in H; rewrite ?Nat.max_id, ?Nat.max_0_l, ?Nat.max_0_r, ?Nat.add_0_l, ?Nat.add_0_r in H.
Ltac mem :=
  repeat lazymatch goal with
  | |- agr _ _ _ (bind (bind _ _) _) _ => rewrite !bind_assoc
  | |- agr _ _ _ (bind (Ok _) _) _ => cbn [bind]
  | |- agr _ _ _ (bind (rolling _ _ _ _) _) _ => eapply agr_roll; [ww|ag|let H := fresh in intros ? ? H; simph H]
  | |- agr _ _ _ (rmap _ _) _ => rewrite !rmap_bind
  end;
  cbn [bind bb_mavg bb_hband bb_lband kc_tp kc_high kc_low];
  lazymatch goal with
  | |- agr _ _ _ (Ok _) _ => eapply agr_ok; [ag|simp; lia]
  | |- agr _ _ _ (rolling _ _ _ _) _ => eapply agr_weak; [eapply agr_rolling; [ww|ag]|simp; lia]
  end.

Section Table.
Context {F : Type} {A : Arith F}.
Ltac start := apply agr_memory; intros past rows; cbn [compute].
Ltac unf := unfold ultimate_oscillator, uo_run, stoch, stoch_signal, stoch_run, roc, awesome_oscillator, williams_r,
  aroon_up, aroon_down, aroon_indicator, sma_indicator, sma_, wma, cci, ichimoku_conversion_line,
  ichimoku_base_line, ichimoku_a, ichimoku_b, ichimoku_run, kst, kst_sig, kst_diff, kst_run, kst_rocma, dpo,
  vortex_indicator_pos, vortex_indicator_neg, vortex_indicator_diff, vortex_run,
  bollinger_mavg, bollinger_hband, bollinger_lband, bollinger_wband, bollinger_pband,
  bollinger_hband_indicator, bollinger_lband_indicator, bollinger_run,
  keltner_channel_mband, keltner_channel_hband, keltner_channel_lband,
  keltner_channel_wband, keltner_channel_pband, keltner_channel_hband_indicator,
  keltner_channel_lband_indicator, keltner_run,
  donchian_channel_hband, donchian_channel_lband, donchian_channel_mband, donchian_channel_wband,
  donchian_channel_pband, donchian_run, ulcer_index, chaikin_money_flow, volume_weighted_average_price,
  ease_of_movement, sma_ease_of_movement, emv, money_flow_index, daily_return, daily_log_return.
Lemma memory_table : forall (ind : indicator F) m, Windowed F \/ each_window_anew ind = true ->
  memory ind = Some m -> finite_memory m (compute ind false).
Proof.
  intros ind m D E. destruct ind; cbn [memory] in E; try discriminate E;
  (destruct D as [D|D]; [|try discriminate D]);
  try (destruct original_version; [|discriminate E]);
  try (destruct (Z.leb_spec 0 (Z.min (Z.min r1 r2) (Z.min r3 r4))); [|discriminate E]);
  injection E as <-; start; unf; cbn [bind].
  all: try (mem; fail).
  1-6: unfold aroon_run; repeat lazymatch goal with
    | |- agr _ _ _ (bind (bind _ _) _) _ => rewrite !bind_assoc
    | |- agr _ _ _ (bind (rolling _ _ _ _) _) _ => eapply agr_roll; [ww|ag|let H := fresh in intros ? ? H; simph H]
    end;
    repeat match goal with |- agr _ _ _ (bind (if ?b then _ else _) _) _ => destruct b; [intros ? ? E; discriminate E|]
      | |- agr _ _ _ _ (bind (if ?b then _ else _) _) => destruct b; [intros ? ? E E'; discriminate E'|] end;
    replace (back (window + 1)) with (lag window) in * by (unfold back, lag; f_equal; lia); mem.
  - destruct visual; [|mem]. destruct (Z.leb_spec 0 window2); [mem|].
    rewrite !bind_assoc.
    eapply agr_roll; [ww|ag|intros ? ? _]. rewrite !bind_assoc.
    eapply agr_roll; [ww|ag|intros ? ? _]. rewrite !bind_assoc. now apply rolling_neg.
  - destruct visual; [|mem]. destruct (Z.leb_spec 0 window2); [mem|].
    rewrite !bind_assoc.
    eapply agr_roll; [ww|ag|intros ? ? _]. rewrite !bind_assoc.
    eapply agr_roll; [ww|ag|intros ? ? _]. rewrite !bind_assoc. now apply rolling_neg.
  - destruct visual; [|mem]. destruct (Z.leb_spec 0 window2); [mem|].
    rewrite !bind_assoc.
    eapply agr_roll; [ww|ag|intros ? ? _]. rewrite !bind_assoc.
    eapply agr_roll; [ww|ag|intros ? ? _]. rewrite !bind_assoc. now apply rolling_neg.
  - destruct visual; [|mem]. destruct (Z.leb_spec 0 window2); [mem|].
    rewrite !bind_assoc.
    eapply agr_roll; [ww|ag|intros ? ? _]. rewrite !bind_assoc.
    eapply agr_roll; [ww|ag|intros ? ? _]. rewrite !bind_assoc. now apply rolling_neg.
  - destruct (Z.leb_spec 0 window); [|now apply rolling_neg].
    unfold dpo_shift. rewrite Z.quot_div_nonneg by lia.
    replace ((window + 2) / 2)%Z with (window / 2 + 1)%Z by (rewrite <- (Z.div_add window 1 2) by lia; f_equal; lia).
    assert (0 <= window / 2)%Z by (apply Z.div_pos; lia). mem.
  - unfold clv, fillna_const. mem.
Qed.
End Table.
