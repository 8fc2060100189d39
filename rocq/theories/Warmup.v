(** * Warmup: the warm-up lengths (C10), from the formulas. *)
From Verif Require Import Lists Api SpecNum SpecWarm Align Rows Fill Tab Averages EwmGaps Range Oscillators Returns Kama
  TrueRange Bands Channels Flows Lines Cycles Directional Sar SpecRaise Raises.
Local Open Scope R_scope.

Lemma begins_fromx : forall k n g, (forall i, (k <= i < n)%nat -> exists r, g i = Fin r) -> begins k n (tab n (fromx k g)).
Proof.
  intros k n g H. split; [unfold tab; now rewrite map_length, seq_length|]. intros i Hi.
  rewrite nth_tab by auto. unfold fromx. destruct (Nat.ltb_spec i k); [auto|]. apply H. lia.
Qed.
Lemma begins_from : forall k n g, begins k n (tab n (from k g)).
Proof. intros. apply begins_fromx. intros. eexists. reflexivity. Qed.
Lemma begins_gaps : forall z k n g, begins k n (tab n (gaps false z k g)).
Proof. intros. apply (begins_from k n g). Qed.
Lemma begins_all : forall n g, begins 0 n (tab n (fun i => Fin (g i))).
Proof. intros. apply (begins_from 0 n g). Qed.
Lemma ratio_fin : forall a b, b <> 0 -> exists r, ratio a b = Fin r.
Proof. intros. unfold ratio. destruct (Req_EM_T b 0); [contradiction|]. eexists. reflexivity. Qed.
Lemma begins_ratio : forall k n a b, (forall i, (k <= i < n)%nat -> b i <> 0) ->
  begins k n (tab n (fromx k (fun i => ratio (a i) (b i)))).
Proof. intros. apply begins_fromx. intros. apply ratio_fin. auto. Qed.
Lemma begins_shows : forall z k n raw res out, res = Ok out -> shows false z raw res -> begins k n raw -> begins k n out.
Proof. intros. destruct H0 as (o & E & ->). congruence. Qed.
Lemma nth_map_in : forall {B D} (f : B -> D) s i d d', (i < length s)%nat -> nth i (map f s) d' = f (nth i s d).
Proof. intros. rewrite (nth_indep _ d' (f d)) by now rewrite map_length. apply map_nth. Qed.
Lemma z_nat : forall w, (1 <= w)%Z -> exists m, w = Z.of_nat m /\ (1 <= m)%nat.
Proof. intros. exists (Z.to_nat w). lia. Qed.
Ltac nat_of w := match goal with H : (1 <= w)%Z |- _ =>
  let m := fresh "m" in let E := fresh "E" in let G := fresh "G" in
  destruct (z_nat w H) as (m & E & G); clear H; subst w end.
Ltac okws := repeat match goal with
  | H : okw _ |- _ => unfold okw in H
  | H : Forall _ (_ :: _) |- _ => inversion H; clear H; subst
  | H : Forall _ [] |- _ => clear H
  | H : (1 <= ?w)%Z |- _ => is_var w; nat_of w
  | H : (1 <= Z.of_nat ?k)%Z |- _ => is_var k; apply (proj2 (Nat2Z.inj_le 1 k)) in H
  | H : is_fin ?d |- _ => is_var d; destruct d; try contradiction; clear H
  end.
Ltac kis e := match goal with |- begins ?k ?n ?o => refine (eq_ind e (fun x => begins x n o) _ k _); [|cbn [warm]; lia]; cbv beta end.
Ltac okv := match goal with H : Ok _ = Ok _ |- _ =>
  apply (f_equal (fun r => match r with Ok x => x | Raise _ => [] end)) in H; cbv beta iota in H; subst end.
Ltac got f := match goal with H : compute _ _ _ = Ok ?o |- begins _ _ ?o =>
  rewrite f in H by auto; apply (f_equal (fun r => match r with Ok x => x | Raise _ => [] end)) in H; cbv beta iota in H; subst end.

(** short frames raise (C11), so a value means enough rows *)
Lemma enough_rows : forall (ind : indicator xr) rows out, compute ind false rows = Ok out ->
  failing_check ind false rows = None.
Proof.
  intros ind rows out E. pose proof (raises_exactly ind false rows eq_refl) as R.
  destruct (failing_check ind false rows); congruence.
Qed.
Lemma frame_length : forall n h l c v, length (frame n h l c v) = n.
Proof. intros. unfold frame, tab. now rewrite map_length, seq_length. Qed.
Lemma begins_delayed : forall k w n (r0 r : result (list xr)) out0 out, delayed k r0 r -> r0 = Ok out0 -> r = Ok out ->
  begins w n out0 -> begins (w + k) n out.
Proof.
  intros k w n r0 r out0 out D -> -> (Ln & B). unfold delayed in D. destruct D as (o & E & Le & D). injection E as <-.
  split; [congruence|]. intros i Hi. rewrite D by lia. destruct (Nat.ltb_spec i k).
  - destruct (Nat.ltb_spec i (w + k)); [reflexivity|lia].
  - specialize (B (i - k)%nat ltac:(lia)). destruct (Nat.ltb_spec (i - k) w); destruct (Nat.ltb_spec i (w + k)); auto; lia.
Qed.
Lemma all_pass : forall l, first_failure l = None -> forall p, In p l -> fst p = false.
Proof.
  induction l as [|[b e] s IH]; cbn; [easy|]. destruct b; [discriminate|]. intros H p [<-|I]; auto.
Qed.
Lemma adx_rows : forall ind w n h l c v out, ind = AdxPos (Z.of_nat w) \/ ind = AdxNeg (Z.of_nat w) ->
  compute ind false (frame n h l c v) = Ok out -> (w <= n)%nat.
Proof.
  intros ind w n h l c v out D E. apply enough_rows in E.
  assert (P : forall p, In p [((Z.of_nat n <? Z.of_nat w - 1)%Z, ValueError); ((Z.of_nat n =? Z.of_nat w - 1)%Z, IndexError)] -> fst p = false).
  { intros p I. destruct D as [-> | ->]; unfold failing_check in E; rewrite frame_length in E;
     apply (all_pass _ E); right; exact I. }
  pose proof (P _ (or_introl eq_refl)) as A. pose proof (P _ (or_intror (or_introl eq_refl))) as B. cbn [fst] in A, B.
  apply Z.ltb_ge in A. apply Z.eqb_neq in B. lia.
Qed.
Lemma begins_offset : forall (r : Z -> result (list xr)) w n o out, (0 <= o)%Z -> r o = Ok out ->
  (forall k, (1 <= k)%nat -> delayed k (r 0%Z) (r (Z.of_nat k))) ->
  (exists out0, r 0%Z = Ok out0 /\ begins w n out0) -> begins (w + Z.to_nat o) n out.
Proof.
  intros r w n o out Ho E D (out0 & E0 & B). destruct (Z.eq_dec o 0).
  - subst. rewrite E in E0. injection E0 as <-. now rewrite Nat.add_0_r.
  - specialize (D (Z.to_nat o) ltac:(lia)). rewrite Z2Nat.id in D by auto. eapply begins_delayed; eauto.
Qed.
Definition kc_line (w a : Z) (o : bool) (m : xr) : list (indicator xr) :=
  [KcM w a o m; KcH w a o m; KcL w a o m; KcW w a o m; KcP w a o m; KcHI w a o m; KcLI w a o m].
Lemma kc_rows : forall ind w a m n h l c v out, In ind (kc_line w (Z.of_nat a) false m) -> (1 <= a)%nat ->
  compute ind false (frame n h l c v) = Ok out -> (1 <= a <= n)%nat.
Proof.
  intros ind w a m n h l c v out D Ha E. apply enough_rows in E.
  assert (P : forall p, In p [((Z.of_nat n <? Z.max (Z.of_nat a) (1 - Z.of_nat a))%Z, IndexError)] -> fst p = false).
    { intros p I. cbn in D. repeat destruct D as [<-|D]; try contradiction; unfold failing_check in E; rewrite frame_length in E;
       apply (all_pass _ E); right; exact I. }
    pose proof (P _ (or_introl eq_refl)) as A. cbn [fst] in A. apply Z.ltb_ge in A. lia.
Qed.
Lemma psar_rows : forall b s m n h l c v out, compute (Psar b s m) false (frame n h l c v) = Ok out -> (1 <= n)%nat.
Proof.
  intros. apply enough_rows in H. unfold failing_check in H. rewrite frame_length in H.
  pose proof (all_pass _ H _ (or_introl eq_refl)) as P. unfold empty_bad in P. cbn [fst] in P. apply Nat.eqb_neq in P. lia.
Qed.
Section W.
Variables (n : nat) (h l c v : nat -> R).
Hypothesis L : lively n h l c v.
Lemma lv_c : forall i, (i < n)%nat -> 0 < c i. Proof. intros i H. pose proof (L i H). lra. Qed.
Lemma lv_c0 : forall i, (i < n)%nat -> c i <> 0. Proof. intros i H. pose proof (L i H). lra. Qed.
Lemma lv_v : forall i, (i < n)%nat -> 0 < v i. Proof. intros i H. pose proof (L i H). lra. Qed.
Lemma lv_v0 : forall i, (i < n)%nat -> v i <> 0. Proof. intros i H. pose proof (L i H). lra. Qed.
Lemma lv_sane : sane n h l c. Proof. intros i H. pose proof (L i H). lra. Qed.
Lemma lv_hl : forall i, (i < n)%nat -> l i < h i. Proof. intros i H. pose proof (L i H). lra. Qed.
Lemma lv_range : forall w i, (1 <= w)%nat -> (i < n)%nat -> wmin w l i < wmax w h i.
Proof.
  intros w i Hw H. pose proof (wmax_ge w h i i Hw ltac:(unfold wlo; lia)).
  pose proof (wmin_le w l i i Hw ltac:(unfold wlo; lia)). pose proof (L i H). lra.
Qed.
Lemma rsum_pos : forall f a k, (1 <= k)%nat -> (forall j, (a <= j < a + k)%nat -> 0 < f j) -> 0 < rsum f a k.
Proof.
  intros f a k Hk H. induction k; [lia|]. cbn [rsum]. destruct (Nat.eq_dec k 0).
  - subst. cbn. pose proof (H (a + 0)%nat ltac:(lia)). lra.
  - pose proof (H (a + k)%nat ltac:(lia)). assert (0 < rsum f a k) by (apply IHk; [lia|]; intros; apply H; lia). lra.
Qed.
Lemma wsum_pos : forall w f i, (1 <= w)%nat -> (forall j, (j <= i)%nat -> 0 < f j) -> 0 < wsum w f i.
Proof.
  intros. apply rsum_pos; [unfold wlen; lia|]. intros. apply H0. unfold wlo, wlen in *. lia.
Qed.
Lemma wmean_pos : forall w f i, (1 <= w)%nat -> (forall j, (j <= i)%nat -> 0 < f j) -> 0 < wmean w f i.
Proof.
  intros. unfold wmean. apply Rdiv_lt_0_compat; [now apply wsum_pos|]. apply lt_0_INR. unfold wlen. lia.
Qed.

Lemma lv_ema : forall w i, (1 <= w)%nat -> (i < n)%nat -> ema w c 0 i <> 0.
Proof. intros w i Hw Hi. apply Rgt_not_eq. apply ema_pos; auto. intros. apply lv_c. lia. Qed.
Lemma lv_emav : forall w i, (1 <= w)%nat -> (i < n)%nat -> ema w v 0 i <> 0.
Proof. intros w i Hw Hi. apply Rgt_not_eq. apply ema_pos; auto. intros. apply lv_v. lia. Qed.
Lemma lv_tr : forall w i, (1 <= w)%nat -> (i < n)%nat -> 0 < wsum w (trange h l c) i.
Proof.
  intros w i Hw Hi. apply wsum_pos; auto. intros j Hj. pose proof (L j ltac:(lia)). destruct j; cbn [trange]; [lra|].
  eapply Rlt_le_trans; [|apply Rmax_l]. lra.
Qed.

Lemma lv_atr : forall w i, (1 <= w)%nat -> (w - 1 <= i < n)%nat -> 0 < atr_value w (trange h l c) i.
Proof.
  intros w i Hw Hi. unfold atr_value. destruct (Nat.ltb_spec i (w - 1)); [lia|].
  assert (T : forall j, (j < n)%nat -> 0 < trange h l c j).
  { intros j Hj. pose proof (L j Hj). destruct j; cbn [trange]; [lra|]. eapply Rlt_le_trans; [|apply Rmax_l]. lra. }
  assert (W : 1 <= INR w) by (apply (le_INR 1); auto). 
  remember (i - (w - 1))%nat as t eqn:Ht. assert (w - 1 + t < n)%nat by lia. clear - Hw H0 T W. induction t; cbn [atr_at].
  - apply Rdiv_lt_0_compat; [|lra]. apply rsum_pos; auto. intros. apply T. lia.
  - apply Rdiv_lt_0_compat; [|lra]. pose proof (T (w - 1 + S t)%nat ltac:(lia)). specialize (IHt ltac:(lia)). nra.
Qed.
Ltac keltner i := match goal with E : compute ?I false _ = Ok _, G : (1 <= ?a)%nat |- _ =>
  match I with
  | ?f ?w (Z.of_nat a) ?o ?m =>
    let W := fresh "W" in
    assert (W : (1 <= a <= n)%nat) by
      (refine (kc_rows I w a m n h l c v _ _ G E); exact (nth_In (kc_line w (Z.of_nat a) false m) I (n := i) ltac:(cbn; lia)));
    match w with Z.of_nat ?x => match m with Fin ?r =>
      destruct (kc_bands_ema false x a r n h l c v) as (P1 & P2 & P3 & P4 & P5); auto end end
  end end.
Theorem warm_up : forall ind k out, warms_up ind k -> compute ind false (frame n h l c v) = Ok out -> begins k n out.
Proof.
  intros ind k out W E. destruct ind; cbn [warms_up] in W; try contradiction;
   repeat match goal with W : context [match ?x with _ => _ end] |- _ => is_var x; destruct x; try contradiction end;
   repeat match goal with W : _ /\ _ |- _ => destruct W end; okws.
  all: try match goal with H : ?x = 0%nat |- begins ?x _ _ => subst x end.
  all: try match goal with H : ?x = 1%nat |- begins ?x _ _ => subst x end.
  - got rsi_formula. kis (m - 1)%nat. apply begins_from.
  - kis (Nat.max m1 (Nat.max m0 m)).
    eapply begins_shows; [exact E|exact (uo_formula false m1 m0 m r r0 r1 n h l c v G1 G0 G lv_sane H0)|].
    cbv iota. apply begins_fromx. intros i Hi. unfold uo_row.
    repeat match goal with |- context [Req_EM_T (wsum ?x _ i) 0] =>
      let P := fresh in assert (P : 0 < wsum x (trange h l c) i) by (apply lv_tr; lia);
      destruct (Req_EM_T (wsum x (trange h l c) i) 0); [lra|] end. eexists. reflexivity.
  - kis (m - 1)%nat. eapply begins_shows; [exact E|apply stoch_formula; auto|]. apply begins_ratio.
    intros i Hi. pose proof (lv_range m i G ltac:(lia)). lra.
  - rewrite stoch_signal_formula in E; auto; [|intros i Hi; pose proof (lv_range m0 i G0 Hi); lra].
    okv. kis (m0 - 1 + (m - 1))%nat. apply begins_from.
  - got kama_formula. kis (m - 1)%nat. apply begins_from.
  - got (roc_formula false k n h l c v lv_c0). apply begins_gaps.
  - got ao_formula. kis (Nat.max m0 m - 1)%nat. apply begins_from.
  - kis (m - 1)%nat. rewrite (wr_stoch _ 1%Z) in E.
    destruct (compute (Stoch (Z.of_nat m) 1) false (frame n h l c v)) as [o|] eqn:S; [|discriminate].
    cbn [rmap] in E. okv. assert (B : begins (m - 1) n o).
    { eapply begins_shows; [exact S|apply stoch_formula; auto|]. apply begins_ratio.
      intros i Hi. pose proof (lv_range m i G ltac:(lia)). lra. }
    destruct B as (Ln & B). split; [now rewrite map_length|]. intros i Hi. specialize (B i Hi).
    rewrite (nth_map_in (fun x : xr => fsub x (Fin 100)) o i NaN) by lia.
    destruct (i <? m - 1)%nat; [now rewrite B|]. destruct B as (r & ->). eexists. reflexivity.
  - destruct (ppo_formula false m1 m0 m n h l c v) as (P & Q & S); auto using lv_ema.
    got P. kis (Nat.max m0 m1 - 1)%nat. apply begins_gaps.
  - destruct (ppo_formula false m1 m0 m n h l c v) as (P & Q & S); auto using lv_ema.
    got Q. kis (Nat.max m0 m1 - 1 + (m - 1))%nat. apply begins_gaps.
  - destruct (ppo_formula false m1 m0 m n h l c v) as (P & Q & S); auto using lv_ema.
    got S. kis (Nat.max m0 m1 - 1 + (m - 1))%nat. apply begins_gaps.
  - destruct (pvo_ppo h l c v h l v n (Z.of_nat m1) (Z.of_nat m0) (Z.of_nat m) false) as (P1 & Q1 & S1).
    destruct (ppo_formula false m1 m0 m n h l v v) as (P & Q & S); auto using lv_emav.
    rewrite P1 in E. got P. kis (Nat.max m0 m1 - 1)%nat. apply begins_gaps.
  - destruct (pvo_ppo h l c v h l v n (Z.of_nat m1) (Z.of_nat m0) (Z.of_nat m) false) as (P1 & Q1 & S1).
    destruct (ppo_formula false m1 m0 m n h l v v) as (P & Q & S); auto using lv_emav.
    rewrite Q1 in E. got Q. kis (Nat.max m0 m1 - 1 + (m - 1))%nat. apply begins_gaps.
  - destruct (pvo_ppo h l c v h l v n (Z.of_nat m1) (Z.of_nat m0) (Z.of_nat m) false) as (P1 & Q1 & S1).
    destruct (ppo_formula false m1 m0 m n h l v v) as (P & Q & S); auto using lv_emav.
    rewrite S1 in E. got S. kis (Nat.max m0 m1 - 1 + (m - 1))%nat. apply begins_gaps.
  - destruct (aroon_formula false k n h l c v) as (P1 & P2 & P3); auto. got P1. apply begins_from.
  - destruct (aroon_formula false k n h l c v) as (P1 & P2 & P3); auto. got P2. apply begins_from.
  - destruct (aroon_formula false k n h l c v) as (P1 & P2 & P3); auto. got P3. apply begins_from.
  - destruct (macd_formula false m1 m0 m n h l c v) as (P1 & P2 & P3); auto. got P1. kis (Nat.max m0 m1 - 1)%nat. apply begins_gaps.
  - destruct (macd_formula false m1 m0 m n h l c v) as (P1 & P2 & P3); auto. got P2. kis (Nat.max m0 m1 - 1 + (m - 1))%nat. apply begins_gaps.
  - destruct (macd_formula false m1 m0 m n h l c v) as (P1 & P2 & P3); auto. got P3. kis (Nat.max m0 m1 - 1 + (m - 1))%nat. apply begins_gaps.
  - got ema_formula. kis (m - 1)%nat. apply begins_from.
  - got sma_formula. kis (m - 1)%nat. apply begins_from.
  - got wma_formula. kis (m - 1)%nat. apply begins_gaps.
  - got (fun G => trix_formula false m n h l c v G lv_c).
    match goal with |- begins k n (tab n (gaps _ _ ?e _)) => replace k with e; [apply begins_gaps|] end.
    cbn [warm]. destruct (Z.eqb_spec (Z.of_nat m) 1); destruct (Nat.eqb_spec (m - 1) 0); lia.
  - got (fun a b => mass_formula false m0 m n h l c v a b lv_hl). kis (m0 - 1 + (m0 - 1) + (m - 1))%nat. apply begins_from.
  - destruct (ichi_formula false m1 m0 m visual n h l c v) as (P1 & P2 & P3 & P4); auto.
    got P1. kis (m1 - 1)%nat. apply begins_from.
  - destruct (ichi_formula false m1 m0 m visual n h l c v) as (P1 & P2 & P3 & P4); auto.
    got P2. kis (m0 - 1)%nat. apply begins_from.
  - destruct (ichi_formula false m1 m0 m false n h l c v) as (P1 & P2 & P3 & P4); auto.
    got P3. kis (Nat.max m1 m0 - 1)%nat. apply begins_from.
  - destruct visual.
    + destruct (ichi_visual false m1 m0 m n h l c v) as (P1 & P2); auto. got P2. apply begins_from.
    + destruct (ichi_formula false m1 m0 m false n h l c v) as (P1 & P2 & P3 & P4); auto. got P4. apply begins_from.
  - destruct (kst_formula false m7 m6 m5 m4 m3 m2 m1 m0 m n h l c v) as (P1 & P2 & P3); auto using lv_c.
    got P1. kis (Nat.max (Nat.max m3 m2) (Nat.max m1 m0) - 1)%nat. apply begins_from.
  - destruct (kst_formula false m7 m6 m5 m4 m3 m2 m1 m0 m n h l c v) as (P1 & P2 & P3); auto using lv_c.
    got P2. kis (Nat.max (Nat.max m3 m2) (Nat.max m1 m0) - 1)%nat. apply begins_from.
  - destruct (kst_formula false m7 m6 m5 m4 m3 m2 m1 m0 m n h l c v) as (P1 & P2 & P3); auto using lv_c.
    got P3. kis (Nat.max (Nat.max m3 m2) (Nat.max m1 m0) - 1)%nat. apply begins_from.
  - got dpo_formula. kis (m - 1)%nat. apply begins_from.
  - split; [rewrite (compute_length (Adx (Z.of_nat m)) _ _ _ I E); apply frame_length|]. intros i Hi. cbn.
    destruct (adx_range false m n h l c v out G lv_sane E i Hi) as (a & -> & _). eexists. reflexivity.
  - pose proof (adx_rows _ _ _ _ _ _ _ _ (or_introl eq_refl) E).
    destruct (di_formula false m n h l c v) as (P & Q); [lia|]. got P. apply begins_all.
  - pose proof (adx_rows _ _ _ _ _ _ _ _ (or_intror eq_refl) E).
    destruct (di_formula false m n h l c v) as (P & Q); [lia|]. got Q. apply begins_all.
  - destruct (vortex_defined false k n h l c v) as (P & Q & S); auto using lv_hl. got P. apply begins_from.
  - destruct (vortex_defined false k n h l c v) as (P & Q & S); auto using lv_hl. got Q. apply begins_from.
  - destruct (vortex_defined false k n h l c v) as (P & Q & S); auto using lv_hl. got S. apply begins_from.
  - pose proof (psar_rows _ _ _ _ _ _ _ _ _ E). destruct (psar_formula int_index r0 r n h l c v) as (P & _); [lia|].
    got P. apply begins_all.
  - destruct (le_lt_dec m n).
    + got (atr_formula false m n h l c v). apply begins_from.
    + rewrite atr_short in E by auto. discriminate.
  - destruct (bb_formula false m r n h l c v) as (P1 & P2 & P3); auto. got P1. kis (m - 1)%nat. apply begins_from.
  - destruct (bb_formula false m r n h l c v) as (P1 & P2 & P3); auto. got P2. kis (m - 1)%nat. apply begins_from.
  - destruct (bb_formula false m r n h l c v) as (P1 & P2 & P3); auto. got P3. kis (m - 1)%nat. apply begins_from.
  - kis (m - 1)%nat. eapply begins_shows; [exact E|apply bb_width_formula; auto|]. apply begins_ratio.
    intros i Hi. apply Rgt_not_eq. apply wmean_pos; auto. intros. apply lv_c. lia.
  - destruct (bb_indicators false m r n h l c v) as (P1 & P2); auto. got P1. apply begins_from.
  - destruct (bb_indicators false m r n h l c v) as (P1 & P2); auto. got P2. apply begins_from.
  - destruct (kc_bands_original false m window_atr multiplier n h l c v) as (P1 & P2 & P3 & P4 & P5); auto. got P1. kis (m - 1)%nat. apply begins_from.
  - keltner 0%nat. got P1. kis (m0 - 1)%nat. apply begins_from.
  - destruct (kc_bands_original false m window_atr multiplier n h l c v) as (P1 & P2 & P3 & P4 & P5); auto. got P2. apply begins_from.
  - keltner 1%nat. got P2. kis (m0 - 1)%nat. apply begins_from.
  - destruct (kc_bands_original false m window_atr multiplier n h l c v) as (P1 & P2 & P3 & P4 & P5); auto. got P3. apply begins_from.
  - keltner 2%nat. got P3. kis (m0 - 1)%nat. apply begins_from.
  - destruct (kc_width false m window_atr multiplier n h l c v) as (P1 & P2); auto. kis (m - 1)%nat.
    eapply begins_shows; [exact E|exact P1|]. apply begins_ratio. intros i Hi. apply Rgt_not_eq. apply wmean_pos; auto.
    intros j Hj. pose proof (L j ltac:(lia)). unfold typical. lra.
  - keltner 3%nat. destruct (kc_width_ema false m0 m r n h l c v) as (P & Q); auto. kis (m0 - 1)%nat.
    eapply begins_shows; [exact E|exact P|]. apply begins_ratio. intros. apply lv_ema; auto; lia.
  - destruct (kc_width false m window_atr multiplier n h l c v) as (P1 & P2); auto.
    eapply begins_shows; [exact E|exact P2|]. apply begins_ratio. intros i Hi.
    assert (0 < wmean m (fun i => h i - l i) i); [|lra]. apply wmean_pos; auto.
    intros j Hj. pose proof (L j ltac:(lia)). lra.
  - keltner 4%nat. destruct (kc_width_ema false m0 m r n h l c v) as (P & Q); auto. kis (m0 - 1)%nat.
    eapply begins_shows; [exact E|exact Q|]. apply begins_ratio. intros i Hi. cbn [warm] in Hi.
    assert (0 < atr_value m (trange h l c) i) by (apply lv_atr; lia). apply Rmult_integral_contrapositive_currified; lra.
  - destruct original_version.
    + destruct (kc_bands_original false m0 (Z.of_nat m) (Fin r) n h l c v) as (P1 & P2 & P3 & P4 & P5); auto. got P4. apply begins_from.
    + keltner 5%nat. got P4. apply begins_from.
  - destruct original_version.
    + destruct (kc_bands_original false m0 (Z.of_nat m) (Fin r) n h l c v) as (P1 & P2 & P3 & P4 & P5); auto. got P5. apply begins_from.
    + keltner 6%nat. got P5. apply begins_from.
  - kis (m - 1 + Z.to_nat offset)%nat.
    apply (begins_offset (fun o => compute (DcH (Z.of_nat m) o) false (frame n h l c v)) (m - 1) n offset out); auto.
    { intros k' Hk. destruct (dc_delayed (Z.of_nat m) k' false (frame n h l c v) Hk) as (D1 & D2 & D3 & D4 & D5). exact D1. }
    destruct (dc_bands false m n h l c v G) as (P1 & P2 & P3). eexists. split; [exact P1|apply begins_from].
  - kis (m - 1 + Z.to_nat offset)%nat.
    apply (begins_offset (fun o => compute (DcL (Z.of_nat m) o) false (frame n h l c v)) (m - 1) n offset out); auto.
    { intros k' Hk. destruct (dc_delayed (Z.of_nat m) k' false (frame n h l c v) Hk) as (D1 & D2 & D3 & D4 & D5). exact D2. }
    destruct (dc_bands false m n h l c v G) as (P1 & P2 & P3). eexists. split; [exact P2|apply begins_from].
  - kis (m - 1 + Z.to_nat offset)%nat.
    apply (begins_offset (fun o => compute (DcM (Z.of_nat m) o) false (frame n h l c v)) (m - 1) n offset out); auto.
    { intros k' Hk. destruct (dc_delayed (Z.of_nat m) k' false (frame n h l c v) Hk) as (D1 & D2 & D3 & D4 & D5). exact D3. }
    destruct (dc_bands false m n h l c v G) as (P1 & P2 & P3). eexists. split; [exact P3|apply begins_from].
  - kis (m - 1 + Z.to_nat offset)%nat.
    apply (begins_offset (fun o => compute (DcW (Z.of_nat m) o) false (frame n h l c v)) (m - 1) n offset out); auto.
    { intros k' Hk. destruct (dc_delayed (Z.of_nat m) k' false (frame n h l c v) Hk) as (D1 & D2 & D3 & D4 & D5). exact D4. }
    destruct (dc_width false m n h l c v G) as (P1 & P2). destruct P1 as (o & P & ->). eexists. split; [exact P|]. apply begins_ratio.
    intros i Hi. apply Rgt_not_eq. apply wmean_pos; auto. intros. apply lv_c. lia.
  - kis (m - 1 + Z.to_nat offset)%nat.
    apply (begins_offset (fun o => compute (DcP (Z.of_nat m) o) false (frame n h l c v)) (m - 1) n offset out); auto.
    { intros k' Hk. destruct (dc_delayed (Z.of_nat m) k' false (frame n h l c v) Hk) as (D1 & D2 & D3 & D4 & D5). exact D5. }
    destruct (dc_width false m n h l c v G) as (P1 & P2). destruct P2 as (o & P & ->). eexists. split; [exact P|]. apply begins_ratio.
    intros i Hi. pose proof (lv_range m i G ltac:(lia)). lra.
  - rewrite ulcer_formula in E; auto.
    + okv. kis (m - 1)%nat. apply begins_gaps.
    + intros i Hi. pose proof (wmax_ge m c i i G ltac:(unfold wlo; lia)). pose proof (L i Hi). lra.
  - got (adi_formula false n h l c v lv_sane). apply begins_from.
  - got obv_formula. apply begins_from.
  - kis (m - 1)%nat. eapply begins_shows; [exact E|exact (cmf_formula false m n h l c v G lv_sane)|]. apply begins_ratio.
    intros i Hi. apply Rgt_not_eq. apply wsum_pos; auto. intros. apply lv_v. lia.
  - got fi_formula. kis (1 + (k - 1))%nat. apply begins_gaps.
  - got (eom_formula false window n h l c v lv_v0). apply begins_gaps.
  - rewrite sma_eom_formula in E; auto using lv_v0. okv. kis (1 + (k - 1))%nat. apply begins_gaps.
  - rewrite vpt_smooth_formula in E; auto using lv_c0. okv. kis (1 + (k - 1))%nat. apply begins_gaps.
  - got (vpt_formula false n h l c v lv_c0). apply begins_gaps.
  - destruct (Nat.eq_dec n 0) as [-> | N]; [cbn in E; discriminate|]. rewrite nvi_formula in E; auto using lv_c0; [|lia].
    okv. apply begins_from.
  - kis (m - 1)%nat. eapply begins_shows; [exact E|exact (vwap_formula false m n h l c v G)|]. apply begins_ratio.
    intros i Hi. apply Rgt_not_eq. apply wsum_pos; auto. intros. apply lv_v. lia.
  - rewrite <- roc1_daily in E. pose proof (roc_formula false 1 n h l c v lv_c0) as P; change (Z.of_nat 1) with 1%Z in P; got P. apply begins_gaps.
  - destruct (Nat.eq_dec n 0) as [-> | N].
    + subst. split; [now rewrite (compute_length (DailyLogReturn xln) _ _ _ I E)|]. intros; lia.
    + subst. destruct (log_returns_add n h l c v) as (g & P & _); auto using lv_c; [lia|]. got P. apply begins_from.
  - destruct (Nat.eq_dec n 0) as [-> | N]; [cbn in E; discriminate|]. rewrite cum_formula in E; [|lia|apply lv_c0; lia].
    okv. apply begins_from.
Qed.
End W.
