(** * CausalMasked: DPO, TRIX, Vortex and KAMA with fillna=False (C04). *)
From Verif Require Import Lists Api Align SpecCausal Causal Rows.

Section Masked.
Context {F : Type} {A : Arith F} {L : ArithLaws F}.

Lemma nth_ssub : forall (l m : list F) i, i < length l -> i < length m ->
  nth i (ssub l m) fnan = fsub (nth i l fnan) (nth i m fnan).
Proof. intros. now apply nth_map2. Qed.
Lemma nth_sdiv : forall (l m : list F) i, i < length l -> i < length m ->
  nth i (sdiv l m) fnan = fdiv (nth i l fnan) (nth i m fnan).
Proof. intros. now apply nth_map2. Qed.
Lemma nth_muls : forall (l : list F) c i, i < length l ->
  nth i (muls l c) fnan = fmul (nth i l fnan) c.
Proof.
  intros. unfold muls. rewrite nth_indep with (d' := (fun x => fmul x c) fnan) by (rewrite map_length; auto).
  now rewrite map_nth with (f := fun x => fmul x c).
Qed.

Lemma dpo_prefix : forall k (c : list F) w r r', (3 <= w)%Z -> k <= length c ->
  dpo c w false = Ok r' -> dpo (firstn k c) w false = Ok r -> r = firstn k r'.
Proof.
  intros k c w r r' Hw Hk H' H. unfold dpo in *. rewrite pf_rolling in H. cbn [minp_of] in *.
  destruct (rolling w w agg_mean c) as [m|] eqn:E; [|discriminate].
  cbn [bind rmap check_fillna] in *. injection H as <-. injection H' as <-.
  assert (Lm : length m = length c) by now apply len_rolling in E.
  set (q := dpo_shift w). assert (Hq : (0 <= q /\ q + 1 <= w)%Z).
  { subst q. unfold dpo_shift. split; [apply Z.quot_pos; lia|].
    rewrite Z.quot_div_nonneg by lia. assert ((w + 2) / 2 * 2 <= w + 2)%Z; [|lia].
    rewrite Z.mul_comm. apply Z.mul_div_le. lia. }
  apply list_eq_nth with fnan.
  - rewrite firstn_length. unfold ssub. rewrite !length_map2, !len_shift_fill, !firstn_length. lia.
  - intros i Hi. unfold ssub in Hi. rewrite length_map2, len_shift_fill, !firstn_length in Hi.
    rewrite nth_firstn_lt by lia.
    rewrite !nth_ssub by (rewrite ?len_shift_fill, ?firstn_length; lia).
    rewrite nth_firstn_lt by lia.
    destruct (Nat.lt_ge_cases i (Z.to_nat q)) as [Hlt|Hge].
    + assert (En : nth i m fnan = fnan).
      { apply (mean_few _ _ _ _ _ _ E); [lia|]. apply window_short; lia. }
      now rewrite En, !sub_nan_r'.
    + rewrite !nth_shift_fill_ge by (rewrite ?firstn_length; lia).
      now rewrite nth_firstn_lt by lia.
Qed.

Lemma trix_prefix : forall k (c : list F) w r r', (2 <= w)%Z -> k <= length c ->
  trix c w false = Ok r' -> trix (firstn k c) w false = Ok r -> r = firstn k r'.
Proof.
  intros k c w r r' Hw Hk H' H. unfold trix, ema_ in *. rewrite pf_ewm_span in H.
  destruct (ewm_span w w c) as [e1|] eqn:E1; [|discriminate]. cbn [bind rmap] in *.
  rewrite pf_ewm_span in H.
  destruct (ewm_span w w e1) as [e2|] eqn:E2; [|discriminate]. cbn [bind rmap] in *.
  rewrite pf_ewm_span in H.
  destruct (ewm_span w w e2) as [e3|] eqn:E3; [|discriminate]. cbn [bind rmap check_fillna] in *.
  injection H as <-. injection H' as <-.
  assert (L1 := len_ewm_span _ _ _ _ E1). assert (L2 := len_ewm_span _ _ _ _ E2).
  assert (L3 := len_ewm_span _ _ _ _ E3).
  apply list_eq_nth with fnan.
  - rewrite firstn_length. unfold muls, sdiv, ssub.
    rewrite !map_length, !length_map2, !len_shift_fill, !firstn_length. lia.
  - intros i Hi. unfold muls, sdiv, ssub in Hi.
    rewrite !map_length, !length_map2, !len_shift_fill, !firstn_length in Hi.
    rewrite nth_firstn_lt by lia.
    rewrite !nth_muls, !nth_sdiv, !nth_ssub
      by (unfold sdiv, ssub; rewrite ?length_map2, ?len_shift_fill, ?firstn_length; lia).
    rewrite !(nth_firstn_lt e3 k i) by lia.
    destruct (Nat.eq_dec i 0) as [->|].
    + assert (En : nth 0 e3 fnan = fnan) by (eapply nth_ewm_span_short; [exact E3|lia|lia]).
      now rewrite En, !sub_nan_l', !div_nan_l'.
    + rewrite !nth_shift_fill_ge by (rewrite ?firstn_length; lia).
      now rewrite nth_firstn_lt by lia.
Qed.

Lemma nth_fabs : forall (l : list F) i, nth i (map fabs l) fnan = fabs (nth i l fnan).
Proof. intros. rewrite <- (map_nth fabs l fnan i). now rewrite abs_nan'. Qed.

Lemma nth_shift_first : forall s : list F, nth 0 (shift 1 s) fnan = fnan.
Proof. intros. destruct s; reflexivity. Qed.

(** windows not reaching row 0 see the same values *)
Lemma window_at_eq : forall w i (s t : list F), i < length s -> i < length t ->
  (forall j, j <= i -> S i <= j + w -> nth j s fnan = nth j t fnan) ->
  window_at w i s = window_at w i t.
Proof.
  intros. apply list_eq_nth with fnan; [now rewrite !length_window_at|].
  rewrite length_window_at by auto. intros j Hj. rewrite !window_at_nth by auto. apply H1; lia.
Qed.

Lemma nth_prep : forall (s : list F) i, nth i (prep s) fnan =
  let x := nth i s fnan in if fisinf x then fnan else x.
Proof.
  intros. unfold prep.
  transitivity (nth i (map (fun x => if fisinf x then fnan else x) s) ((fun x => if fisinf x then fnan else x) fnan)).
  - f_equal. now rewrite isinf_nan.
  - now rewrite map_nth with (f := fun x => if fisinf x then fnan else x).
Qed.

Lemma vortex_run_prefix : Windowed F -> forall k (h l c : list F) w p m p' m',
  length h = length c -> length l = length c -> k <= length c ->
  vortex_run h l c w false = Ok (p', m') ->
  vortex_run (firstn k h) (firstn k l) (firstn k c) w false = Ok (p, m) ->
  p = firstn k p' /\ m = firstn k m'.
Proof.
  intros W k h l c w p m p' m' Hh Hl Hk H' H. unfold vortex_run in *. cbn [minp_of] in *.
  rewrite !pf_shift1, !pf_ssub, !pf_map, !pf_rolling in H.
  set (tr' := true_range h l (shift_fill 1 (smean c) c)) in *.
  set (tr := true_range (firstn k h) _ _) in *.
  set (vmp := map fabs (ssub h (shift 1 l))) in *. set (vmm := map fabs (ssub l (shift 1 h))) in *.
  destruct (rolling w w agg_sum tr') as [t'|] eqn:Et'; [|discriminate].
  destruct (rolling w w agg_sum tr) as [t|] eqn:Et; [|discriminate]. cbn [bind rmap] in *.
  destruct (rolling w w agg_sum vmp) as [vp|] eqn:Ep; [|discriminate]. cbn [bind rmap] in *.
  destruct (rolling w w agg_sum vmm) as [vm|] eqn:Em; [|discriminate]. cbn [bind rmap] in *.
  injection H as <- <-. injection H' as <- <-.
  assert (Ltr' : length tr' = length c) by (subst tr'; ln).
  assert (Ltr : length tr = k) by (subst tr; ln; rewrite firstn_length; lia).
  assert (Lt' : length t' = length c) by (apply len_rolling in Et'; congruence).
  assert (Lt : length t = k) by (apply len_rolling in Et; congruence).
  assert (Lvp0 : length vmp = length c) by (subst vmp; ln).
  assert (Lvm0 : length vmm = length c) by (subst vmm; ln).
  assert (Lvp : length vp = length c) by (apply len_rolling in Ep; congruence).
  assert (Lvm : length vm = length c) by (apply len_rolling in Em; congruence).
  assert (Hw0 : (0 <= w)%Z).
  { unfold rolling in Et. destruct (Z.ltb_spec w 0); [|lia].
    rewrite !orb_true_l in Et. discriminate Et. }
  assert (Htr : forall j, 1 <= j < k -> nth j tr fnan = nth j tr' fnan).
  { intros j Hj. subst tr tr'. unfold true_range.
    assert (G : forall a b d a' b' d', length a = k -> length b = k -> length d = k ->
       length a' = length c -> length b' = length c -> length d' = length c ->
       nth j a fnan = nth j a' fnan -> nth j b fnan = nth j b' fnan -> nth j d fnan = nth j d' fnan ->
       nth j (map3 (fun x y z : F => nanmax [x; y; z]) a b d) fnan =
       nth j (map3 (fun x y z : F => nanmax [x; y; z]) a' b' d') fnan).
    { assert (N3 : forall (f : F -> F -> F -> F) a b d i, i < length a -> i < length b -> i < length d ->
         nth i (map3 f a b d) fnan = f (nth i a fnan) (nth i b fnan) (nth i d fnan)).
      { induction a; destruct b, d; cbn; intros; try lia. destruct i; auto. apply IHa; lia. }
      intros. rewrite !N3 by lia. congruence. }
    apply G; try (rewrite ?map_length; ln; rewrite ?firstn_length; lia).
    - rewrite !nth_ssub by (rewrite ?firstn_length; lia). now rewrite !nth_firstn_lt by lia.
    - rewrite !nth_fabs. f_equal. rewrite !nth_ssub by (rewrite ?len_shift_fill, ?firstn_length; lia).
      rewrite !nth_shift_fill_ge by (rewrite ?firstn_length; lia).
      now rewrite !nth_firstn_lt by lia.
    - rewrite !nth_fabs. f_equal. rewrite !nth_ssub by (rewrite ?len_shift_fill, ?firstn_length; lia).
      rewrite !nth_shift_fill_ge by (rewrite ?firstn_length; lia).
      now rewrite !nth_firstn_lt by lia. }
  assert (N0 : forall (a b : list F), 0 < length a -> 0 < length b -> nth 0 (map fabs (ssub a (shift 1 b))) fnan = fnan).
  { intros. rewrite nth_fabs, nth_ssub by (rewrite ?len_shift; lia).
    now rewrite nth_shift_first, sub_nan_r', abs_nan'. }
  assert (G : forall v v0, length v0 = length c -> length v = length c ->
     rolling w w agg_sum v0 = Ok v -> (0 < length c -> nth 0 v0 fnan = fnan) ->
     sdiv (firstn k v) t = firstn k (sdiv v t')).
  { intros v v0 L0 Lv Ev Hn. apply list_eq_nth with fnan.
    - rewrite firstn_length. unfold sdiv. rewrite !length_map2, firstn_length. lia.
    - intros i Hi. unfold sdiv in Hi. rewrite length_map2, firstn_length in Hi.
      rewrite nth_firstn_lt by lia. rewrite !nth_sdiv by (rewrite ?firstn_length; lia).
      rewrite nth_firstn_lt by lia.
      destruct (Nat.lt_ge_cases i (Z.to_nat w)) as [Hlt|Hge].
      + assert (En : nth i v fnan = fnan).
        { apply (sum_few _ _ _ _ _ _ Ev); [lia|].
          apply window_missing with 0; try lia. apply Hn. lia. }
        now rewrite En, !div_nan_l'.
      + f_equal. rewrite (nth_rolling _ _ _ _ _ _ _ Et) by lia.
        rewrite (nth_rolling _ _ _ _ _ _ _ Et') by lia. f_equal.
        apply window_at_eq; rewrite ?len_prep; try lia.
        intros j Hj1 Hj2. rewrite !nth_prep. now rewrite Htr by lia. }
  split; [apply (G vp vmp)|apply (G vm vmm)]; auto; intros; apply N0; lia.
Qed.

(** one step of the KAMA recursion *)
Lemma kama_go_ext : forall sc sc' c b p,
  length sc = length c -> length sc' = length c ->
  (forall i, i < length c -> fisnan (nth i sc fnan) = fisnan (nth i sc' fnan)) ->
  (forall i, i < length c -> nth i sc fnan = nth i sc' fnan \/
     (b = true /\ forall j, j < i -> fisnan (nth j sc fnan) = true)) ->
  @kama_go F A sc c b p = kama_go sc' c b p.
Proof.
  induction sc; destruct sc', c; cbn [length]; intros b p H1 H2 Hn He; try lia; auto.
  cbn [kama_go]. pose proof (Hn 0 ltac:(lia)) as N0. cbn in N0. rewrite <- N0.
  destruct (fisnan a) eqn:Ea.
  - f_equal. apply IHsc; try lia.
    + intros. apply (Hn (S i)). lia.
    + intros. destruct (He (S i) ltac:(lia)) as [|[? Hj]]; [left; auto|right].
      split; auto. intros. apply (Hj (S j)). lia.
  - destruct b.
    + f_equal. apply IHsc; try lia.
      * intros. apply (Hn (S i)). lia.
      * intros. destruct (He (S i) ltac:(lia)) as [|[? Hj]]; [left; auto|].
        specialize (Hj 0 ltac:(lia)). cbn in Hj. congruence.
    + destruct (He 0 ltac:(lia)) as [E0|[? ?]]; [|discriminate]. cbn in E0. subst f. f_equal.
      apply IHsc; try lia.
      * intros. apply (Hn (S i)). lia.
      * intros. destruct (He (S i) ltac:(lia)) as [|[? Hj]]; [left; auto|discriminate].
Qed.

Lemma np_roll_nth : forall w (s : list F) i d, Z.to_nat w <= i -> (0 <= w)%Z -> i < length s ->
  nth i (np_roll w s) d = nth (i - Z.to_nat w) s d.
Proof.
  intros. unfold np_roll. destruct s; [cbn in H1; lia|]. remember (f :: s) as t.
  rewrite Z.mod_small by lia.
  rewrite app_nth2 by (rewrite skipn_length; lia). rewrite skipn_length.
  rewrite nth_firstn_lt by lia. f_equal. lia.
Qed.

Lemma kama_go_nan : forall sc c b p i, i < length sc -> i < length c ->
  fisnan (nth i (@kama_go F A sc c b p) fnan) = false -> fisnan (nth i sc fnan) = false.
Proof.
  induction sc; destruct c; cbn [length]; intros; try lia.
  cbn [kama_go] in H1. destruct i; cbn [nth] in *.
  - destruct (fisnan a) eqn:E; auto. cbn in H1. now rewrite isnan_nan in H1.
  - destruct (fisnan a); [|destruct b]; cbn in H1; eapply IHsc; eauto; lia.
Qed.

Lemma kama_sc_ok : forall (c : list F) w p1 p2 sc, kama_sc c w p1 p2 false = Ok sc ->
  exists den, rolling w w agg_sum (map fabs (ssub c (np_roll 1 c))) = Ok den /\
  sc = map (fun e => let x := fadd (fmul e (fsub (fdiv (fofZ 2) (fofZ (p1 + 1))) (fdiv (fofZ 2) (fofZ (p2 + 1)))))
                                   (fdiv (fofZ 2) (fofZ (p2 + 1))) in fmul x x)
         (map2 (fun n d => if negb (feqb d (fofZ 0)) then fdiv n d else fofZ 0)
               (map fabs (ssub c (np_roll w c))) den).
Proof.
  intros. unfold kama_sc in H. cbn [minp_of] in H.
  destruct (rolling w w agg_sum _) as [den|] eqn:E; [|discriminate]. cbn [bind] in H.
  destruct (_ || _); [discriminate|]. injection H as <-. eauto.
Qed.

Lemma kama_prefix : Windowed F -> forall k (c : list F) w p1 p2 r r', (1 <= w)%Z -> k <= length c ->
  kama c w p1 p2 false = Ok r' -> kama (firstn k c) w p1 p2 false = Ok r ->
  (Z.to_nat w <= k -> fisnan (nth (Z.to_nat w - 1) r fnan) = false /\
                      fisnan (nth (Z.to_nat w - 1) r' fnan) = false) ->
  r = firstn k r'.
Proof.
  intros W k c w p1 p2 r r' Hw Hk H' H Hd. unfold kama, kama_run in *.
  destruct (kama_sc c w p1 p2 false) as [sc'|] eqn:S'; [|discriminate].
  destruct (kama_sc (firstn k c) w p1 p2 false) as [sc|] eqn:S; [|discriminate].
  cbn [bind rmap check_fillna] in *. injection H as <-. injection H' as <-.
  apply kama_sc_ok in S as (den & D & ->). apply kama_sc_ok in S' as (den' & D' & ->).
  match goal with |- kama_go (map ?g ?x) _ _ _ = firstn k (kama_go (map ?g ?x') _ _ _) =>
    set (er := x) in *; set (er' := x') in *; set (G := g) in * end.
  set (vol := map fabs (ssub (firstn k c) (np_roll 1 (firstn k c)))) in *.
  set (vol' := map fabs (ssub c (np_roll 1 c))) in *.
  assert (Lf : length (firstn k c) = k) by (rewrite firstn_length; lia).
  assert (Lv : length vol = k) by (subst vol; ln).
  assert (Lv' : length vol' = length c) by (subst vol'; ln).
  assert (Ld : length den = k) by (apply len_rolling in D; congruence).
  assert (Ld' : length den' = length c) by (apply len_rolling in D'; congruence).
  assert (Le : length er = k) by (subst er; ln).
  assert (Le' : length er' = length c) by (subst er'; ln).
  rewrite <- pf_kama_go, <- pf_map.
  assert (Gn : G fnan = fnan) by (subst G; cbn; now rewrite mul_nan_l', add_nan_l', mul_nan_l').
  assert (Ner : forall i, i < k -> nth i er fnan =
     (fun n d => if negb (feqb d (fofZ 0)) then fdiv n d else fofZ 0)
       (fabs (fsub (nth i c fnan) (nth i (np_roll w (firstn k c)) fnan))) (nth i den fnan)).
  { intros i Hi. subst er. rewrite nth_map2 with (da := fnan) (db := fnan).
    - rewrite nth_fabs, nth_ssub by (rewrite ?len_np_roll; lia). now rewrite nth_firstn_lt by lia.
    - rewrite map_length. ln. rewrite (ln_ssub _ _ k); auto. now rewrite len_np_roll.
    - lia. }
  assert (Ner' : forall i, i < length c -> nth i er' fnan =
     (fun n d => if negb (feqb d (fofZ 0)) then fdiv n d else fofZ 0)
       (fabs (fsub (nth i c fnan) (nth i (np_roll w c) fnan))) (nth i den' fnan)).
  { intros i Hi. subst er'. rewrite nth_map2 with (da := fnan) (db := fnan).
    - now rewrite nth_fabs, nth_ssub by (rewrite ?len_np_roll; lia).
    - rewrite map_length. rewrite (ln_ssub _ _ (length c)); auto. now rewrite len_np_roll.
    - lia. }
  assert (Early : forall i, i < k -> S i < Z.to_nat w -> nth i er fnan = fnan /\ nth i er' fnan = fnan).
  { intros i Hi Hs.
    assert (E1 : nth i den fnan = fnan).
    { apply (sum_few _ _ _ _ _ _ D); [lia|]. apply window_short; lia. }
    assert (E2 : nth i den' fnan = fnan).
    { apply (sum_few _ _ _ _ _ _ D'); [lia|]. apply window_short; lia. }
    rewrite Ner, Ner' by lia. cbn beta. rewrite E1, E2.
    rewrite eqb_nan_l by apply isnan_nan. cbn. now rewrite !div_nan_r'. }
  assert (Late : forall i, i < k -> Z.to_nat w <= i -> nth i er fnan = nth i er' fnan).
  { intros i Hi Hs. rewrite Ner, Ner' by lia. cbn beta.
    rewrite !np_roll_nth by lia. rewrite nth_firstn_lt by lia.
    rewrite (nth_rolling _ _ _ _ _ _ _ D), (nth_rolling _ _ _ _ _ _ _ D') by lia.
    replace (window_at (Z.to_nat w) i (prep vol)) with (window_at (Z.to_nat w) i (prep vol')); auto.
    apply window_at_eq; rewrite ?len_prep; try lia.
    intros j J1 J2. rewrite !nth_prep. replace (nth j vol fnan) with (nth j vol' fnan); auto.
    subst vol vol'. rewrite !nth_fabs, !nth_ssub by (rewrite ?len_np_roll, ?Lf; lia).
    rewrite !np_roll_nth by lia. now rewrite !nth_firstn_lt by lia. }
  assert (Nm : forall x i, nth i (map G x) fnan = G (nth i x fnan)).
  { intros. rewrite <- Gn at 1. apply map_nth. }
  apply kama_go_ext.
  - rewrite map_length; lia.
  - rewrite map_length, firstn_length. lia.
  - intros i Hi. rewrite Lf in Hi. rewrite !Nm. rewrite (nth_firstn_lt er') by lia.
    destruct (Nat.lt_ge_cases i (Z.to_nat w)).
    + destruct (Nat.eq_dec i (Z.to_nat w - 1)).
      * destruct (Hd ltac:(lia)) as [Q1 Q2].
        apply kama_go_nan in Q1; [|rewrite map_length; lia|lia].
        apply kama_go_nan in Q2; [|rewrite map_length; lia|lia].
        rewrite !Nm in *. subst i. congruence.
      * destruct (Early i) as [-> ->]; try lia. reflexivity.
    + now rewrite Late.
  - intros i Hi. rewrite Lf in Hi. rewrite !Nm, (nth_firstn_lt er') by lia.
    destruct (Nat.lt_ge_cases i (Z.to_nat w)).
    + right. split; auto. intros j Hj. rewrite Nm.
      destruct (Early j) as [-> _]; try lia. rewrite Gn. apply isnan_nan.
    + left. now rewrite Late.
Qed.

Lemma append_prefix : forall (rows more : list (bar F)), firstn (length rows) (rows ++ more) = rows.
Proof. intros. rewrite firstn_app, Nat.sub_diag, firstn_all; cbn [firstn]; now rewrite app_nil_r. Qed.

Lemma dpo_no_lookahead : forall w, (3 <= w)%Z -> no_lookahead (compute (Dpo w) false).
Proof.
  intros w Hw rows more out out' H H'. symmetry. rewrite <- (append_prefix rows more) in H.
  cbn [compute] in *. rewrite pf_map in H. eapply dpo_prefix; eauto.
  rewrite map_length, app_length. lia.
Qed.
Lemma trix_no_lookahead : forall w, (2 <= w)%Z -> no_lookahead (compute (Trix w) false).
Proof.
  intros w Hw rows more out out' H H'. symmetry. rewrite <- (append_prefix rows more) in H.
  cbn [compute] in *. rewrite pf_map in H. eapply trix_prefix; eauto.
  rewrite map_length, app_length. lia.
Qed.
Lemma vortex_no_lookahead : Windowed F -> forall w,
  no_lookahead (compute (VortexPos w) false) /\ no_lookahead (compute (VortexNeg w) false) /\
  no_lookahead (compute (VortexDiff w) false).
Proof.
  intros W.
  assert (G : forall w rows more p m p' m',
    vortex_run (map b_high rows) (map b_low rows) (map b_close rows) w false = Ok (p, m) ->
    vortex_run (map b_high (rows ++ more)) (map b_low (rows ++ more)) (map b_close (rows ++ more)) w false = Ok (p', m') ->
    p = firstn (length rows) p' /\ m = firstn (length rows) m').
  { intros. rewrite <- (append_prefix rows more) in H. repeat rewrite pf_map in H.
    eapply vortex_run_prefix; [exact W| | | |exact H0|exact H]; rewrite ?map_length, ?app_length; lia. }
  intros w. split; [|split]; intros rows more out out' H H'; cbn [compute] in *;
  unfold vortex_indicator_pos, vortex_indicator_neg, vortex_indicator_diff in *;
  (destruct (vortex_run (map b_high rows) _ _ _ _) as [[p m]|] eqn:E; [|discriminate]);
  (destruct (vortex_run (map b_high (rows ++ more)) _ _ _ _) as [[p' m']|] eqn:E'; [|discriminate]);
  destruct (G _ _ _ _ _ _ _ E E') as [-> ->];
  cbn [bind check_fillna] in *; inversion H; inversion H'; subst; auto. now rewrite pf_ssub.
Qed.
Lemma kama_no_lookahead : Windowed F -> forall w p1 p2 rows more out out', (1 <= w)%Z ->
  compute (Kama w p1 p2) false rows = Ok out -> compute (Kama w p1 p2) false (rows ++ more) = Ok out' ->
  (Z.to_nat w <= length rows -> fisnan (nth (Z.to_nat w - 1) out fnan) = false /\
                      fisnan (nth (Z.to_nat w - 1) out' fnan) = false) ->
  firstn (length rows) out' = out.
Proof.
  intros W w p1 p2 rows more out out' Hw H H' Hd. symmetry. rewrite <- (append_prefix rows more) in H.
  cbn [compute] in *. rewrite pf_map in H. eapply kama_prefix; eauto.
  rewrite map_length, app_length. lia.
Qed.
End Masked.
