(** * CausalAdx: ADX family on a prefix (C03). *)
From Verif Require Import Lists Api Align SpecCausal Causal.

Section AdxPrefix.
Context {F : Type} {A : Arith F} {L : ArithLaws F}.

Lemma obs_app : forall a b : list F, obs (a ++ b) = obs a ++ obs b.
Proof. intros. apply filter_app. Qed.

Lemma obs_prefix : forall w n (x : list F), w <= length (obs (firstn n x)) ->
  firstn w (obs (firstn n x)) = firstn w (obs x).
Proof.
  intros. rewrite <- (firstn_skipn n x) at 2. rewrite obs_app, firstn_app.
  replace (w - length (obs (firstn n x))) with 0 by lia. now rewrite firstn_O, app_nil_r.
Qed.

Lemma obs_count : forall w (x : list F), w <= length x ->
  (forall i, i < w -> fisnan (nth i x fnan) = false) -> w <= length (obs x).
Proof.
  induction w; intros; [lia|]. destruct x; cbn in H; [lia|].
  unfold obs. cbn. generalize (H0 0 ltac:(lia)); cbn; intros ->. cbn. apply le_n_S.
  apply IHw; [lia|]. intros. apply (H0 (S i)). lia.
Qed.

Lemma obs_count_S : forall w (x : list F), S w <= length x ->
  (forall i, i < w -> fisnan (nth (S i) x fnan) = false) -> w <= length (obs x).
Proof.
  intros. destruct x; cbn in H; [lia|].
  assert (w <= length (obs x)) by (apply obs_count; [lia|]; intros; now apply (H0 i)).
  unfold obs in *. cbn. destruct (negb _); cbn; lia.
Qed.

(** numeric rows 1..w of a component of the ADX state *)
Definition numeric1 (w : nat) (x : list F) : Prop :=
  forall i, i < w -> fisnan (nth (S i) x fnan) = false.

Lemma smooth_prefix : forall w k (x : list F), 1 <= w -> S w <= k -> k <= length x ->
  numeric1 w (firstn k x) ->
  firstn (k - w) (adx_smooth w (k + 1 - w) (firstn k x)) =
  firstn (k - w) (adx_smooth w (length x + 1 - w) x).
Proof.
  intros w k x Hw Hk Hx Hn. unfold adx_smooth.
  rewrite (proj2 (Nat.eqb_neq (k + 1 - w) 1)), (proj2 (Nat.eqb_neq (length x + 1 - w) 1)) by lia.
  rewrite obs_prefix.
  2:{ apply obs_count_S; auto. rewrite firstn_length. lia. }
  replace (k - w) with (S (k - S w)) by lia. cbn [firstn app]. f_equal.
  rewrite !firstn_app, !len_smooth_go, !skipn_length, firstn_length.
  replace (k - S w - (Nat.min k (length x) - S w)) with 0 by lia.
  replace (k - S w - (length x - S w)) with 0 by lia. rewrite !firstn_O, !app_nil_r.
  rewrite <- !pf_smooth_go. f_equal. rewrite firstn_skipn_comm, firstn_firstn.
  rewrite firstn_skipn_comm. do 2 f_equal. lia.
Qed.

Definition st_take (j : nat) (s : @adx_state F) :=
  {| adx_trs := firstn j (adx_trs s); adx_dip := firstn j (adx_dip s); adx_din := firstn j (adx_din s) |}.

Definition adx_ddm (h l c : list F) :=
  ssub (map2 npmax2 h (shift 1 c)) (map2 npmin2 l (shift 1 c)).
Definition adx_pdm (h l : list F) :=
  map2 (fun u d => fabs (fmul (if fltb d u && fltb (fofZ 0) u then fofZ 1 else fofZ 0) u))
       (ssub h (shift 1 h)) (ssub (shift 1 l) l).
Definition adx_ndm (h l : list F) :=
  map2 (fun u d => fabs (fmul (if fltb u d && fltb (fofZ 0) d then fofZ 1 else fofZ 0) d))
       (ssub h (shift 1 h)) (ssub (shift 1 l) l).

Lemma adx_run_eq : forall h l c w st, @adx_run F A h l c w = Ok st ->
  let W := Z.to_nat w in let m := length c + 1 - W in
  1 <= W <= length c /\
  st = {| adx_trs := adx_smooth W m (adx_ddm h l c); adx_dip := adx_smooth W m (adx_pdm h l);
          adx_din := adx_smooth W m (adx_ndm h l) |}.
Proof.
  intros h l c w st H W m. unfold adx_run in H.
  destruct (Z.eqb_spec w 0); [discriminate|]. cbn [get_min_max bind] in H.
  destruct (Z.ltb_spec w 0); [discriminate|].
  destruct (Z.ltb_spec (Z.of_nat (length c) - (w - 1)) 0); [discriminate|].
  destruct (Z.eqb_spec (Z.of_nat (length c) - (w - 1)) 0); [discriminate|].
  simpl orb in H. cbn iota in H. injection H as <-.
  replace (Z.to_nat (Z.of_nat (length c) - (w - 1))) with m by (subst m W; lia).
  split; [subst W; lia|reflexivity].
Qed.

Lemma adx_run_prefix : forall k h l c w st st', length h = length c -> length l = length c ->
  k <= length c -> @adx_run F A h l c w = Ok st' ->
  adx_run (firstn k h) (firstn k l) (firstn k c) w = Ok st ->
  let W := Z.to_nat w in
  S W <= k ->
  numeric1 W (firstn k (adx_ddm h l c)) -> numeric1 W (firstn k (adx_pdm h l)) ->
  numeric1 W (firstn k (adx_ndm h l)) ->
  st_take (k - W) st = st_take (k - W) st'.
Proof.
  intros k h l c w st st' Hh Hl Hk H' H W HW N1 N2 N3.
  apply adx_run_eq in H. apply adx_run_eq in H'. destruct H as [R ->]. destruct H' as [R' ->].
  fold W in R, R' |- *.
  rewrite firstn_length, Nat.min_l in * by lia.
  assert (E1 : adx_ddm (firstn k h) (firstn k l) (firstn k c) = firstn k (adx_ddm h l c))
    by (unfold adx_ddm; now rewrite pf_shift1, !firstn_map2, pf_ssub).
  assert (E2 : adx_pdm (firstn k h) (firstn k l) = firstn k (adx_pdm h l))
    by (unfold adx_pdm; now rewrite !pf_shift1, !pf_ssub, !firstn_map2).
  assert (E3 : adx_ndm (firstn k h) (firstn k l) = firstn k (adx_ndm h l))
    by (unfold adx_ndm; now rewrite !pf_shift1, !pf_ssub, !firstn_map2).
  assert (L1 : length (adx_ddm h l c) = length c) by (unfold adx_ddm; ln).
  assert (L2 : length (adx_pdm h l) = length c) by (unfold adx_pdm; ln).
  assert (L3 : length (adx_ndm h l) = length c) by (unfold adx_ndm; ln).
  rewrite E1, E2, E3. unfold st_take. cbn [adx_trs adx_dip adx_din].
  rewrite (smooth_prefix W k (adx_ddm h l c)), (smooth_prefix W k (adx_pdm h l)),
    (smooth_prefix W k (adx_ndm h l)) by (auto; lia).
  now rewrite L1, L2, L3.
Qed.

Lemma adx_line_prefix : forall k n w (x t x' t' : list F), 1 <= w -> k <= n -> w <= k ->
  length t' = n + 1 - w -> length x' = n + 1 - w ->
  length t = k + 1 - w -> length x = k + 1 - w ->
  (S w <= k -> firstn (k - w) t = firstn (k - w) t') ->
  (S w <= k -> firstn (k - w) x = firstn (k - w) x') ->
  adx_line k w x t = firstn k (adx_line n w x' t').
Proof.
  intros k n w x t x' t' Hw Hn Hk T' X' T X Ht Hx. unfold adx_line. rewrite T, T'.
  destruct (Nat.eq_dec w k) as [->|].
  - rewrite firstn_app, firstn_repeat, repeat_length.
    replace (k - Nat.min n (S k)) with 0 by lia. replace (k + 1 - k - 2) with 0 by lia.
    cbn [firstn]. rewrite !app_nil_r. f_equal. lia.
  - specialize (Ht ltac:(lia)). specialize (Hx ltac:(lia)).
    rewrite firstn_app, firstn_repeat, repeat_length.
    rewrite !Nat.min_r by lia. f_equal.
    rewrite firstn_firstn. rewrite !firstn_skipn_comm.
    replace (1 + Nat.min (k - S w) (n + 1 - w - 2)) with (k - w) by lia.
    replace (1 + (k + 1 - w - 2)) with (k - w) by lia.
    rewrite <- !firstn_map2. now rewrite Ht, Hx.
Qed.

Lemma nth_shift1 : forall (s : list F) i d, S i < length s -> nth (S i) (shift 1 s) d = nth i s d.
Proof.
  intros. unfold shift. rewrite shift_fill_pos by lia. rewrite nth_firstn_lt by lia. reflexivity.
Qed.

Lemma rows_numeric1 : forall w rows, rows_numeric w rows -> S (Z.to_nat w) <= length rows ->
  let h := map b_high rows in let l := map b_low rows in let c := map b_close rows in
  numeric1 (Z.to_nat w) (adx_ddm h l c) /\ numeric1 (Z.to_nat w) (adx_pdm h l) /\
  numeric1 (Z.to_nat w) (adx_ndm h l).
Proof.
  intros w rows H Hl h l c.
  assert (Lh : length h = length rows) by apply map_length.
  assert (Ll : length l = length rows) by apply map_length.
  assert (Lc : length c = length rows) by apply map_length.
  assert (P : forall i, i < Z.to_nat w -> exists p b, dm_numeric p b /\
     nth i h fnan = b_high p /\ nth i l fnan = b_low p /\ nth i c fnan = b_close p /\
     nth (S i) h fnan = b_high b /\ nth (S i) l fnan = b_low b).
  { intros i Hi. destruct (nth_error rows i) as [p|] eqn:E1.
    2:{ apply nth_error_None in E1. lia. }
    destruct (nth_error rows (S i)) as [b|] eqn:E2.
    2:{ apply nth_error_None in E2. lia. }
    exists p, b. split; [eapply H; eauto|].
    assert (G : forall j (q : bar F) (f : bar F -> F), nth_error rows j = Some q -> nth j (map f rows) fnan = f q).
    { intros. apply nth_error_nth. now apply map_nth_error. }
    subst h l c. repeat split; now apply G. }
  unfold numeric1. repeat split; intros i Hi; destruct (P i Hi) as (p & b & (D1 & D2 & D3) & E1 & E2 & E3 & E4 & E5).
  - unfold adx_ddm, ssub.
    erewrite nth_map2 with (da := fnan) (db := fnan); [|rewrite length_map2, ?len_shift; lia..].
    rewrite !nth_map2 with (da := fnan) (db := fnan) by (rewrite ?len_shift; lia).
    rewrite nth_shift1 by lia. rewrite E3, E4, E5. exact D1.
  - unfold adx_pdm, ssub.
    rewrite nth_map2 with (da := fnan) (db := fnan) by (rewrite length_map2, ?len_shift; lia).
    rewrite !nth_map2 with (da := fnan) (db := fnan) by (rewrite ?len_shift; lia).
    rewrite !nth_shift1 by lia. rewrite E1, E2, E4, E5. exact D2.
  - unfold adx_ndm, ssub.
    rewrite nth_map2 with (da := fnan) (db := fnan) by (rewrite length_map2, ?len_shift; lia).
    rewrite !nth_map2 with (da := fnan) (db := fnan) by (rewrite ?len_shift; lia).
    rewrite !nth_shift1 by lia. rewrite E1, E2, E4, E5. exact D3.
Qed.

Lemma adx_prefix : forall ind w fl k rows out out', adx_based ind = Some w ->
  rows_numeric w (firstn k rows) -> k <= length rows ->
  compute ind fl rows = Ok out' -> compute ind fl (firstn k rows) = Ok out -> out = firstn k out'.
Proof.
  intros ind w fl k rows out out' Hi Hn Hk H' H.
  assert (Lh := map_length b_high rows). assert (Ll := map_length b_low rows).
  assert (Lc := map_length b_close rows).
  assert (N : S (Z.to_nat w) <= k ->
     numeric1 (Z.to_nat w) (firstn k (adx_ddm (map b_high rows) (map b_low rows) (map b_close rows))) /\
     numeric1 (Z.to_nat w) (firstn k (adx_pdm (map b_high rows) (map b_low rows))) /\
     numeric1 (Z.to_nat w) (firstn k (adx_ndm (map b_high rows) (map b_low rows)))).
  { intros HW. destruct (rows_numeric1 _ _ Hn) as (N1 & N2 & N3).
    { rewrite firstn_length. lia. }
    repeat rewrite pf_map in N1. repeat rewrite pf_map in N2. repeat rewrite pf_map in N3.
    repeat split.
    - unfold adx_ddm in *. now rewrite pf_shift1, !firstn_map2, pf_ssub in N1.
    - unfold adx_pdm in *. now rewrite !pf_shift1, !pf_ssub, !firstn_map2 in N2.
    - unfold adx_ndm in *. now rewrite !pf_shift1, !pf_ssub, !firstn_map2 in N3. }
  assert (R : forall st st',
     adx_run (map b_high rows) (map b_low rows) (map b_close rows) w = Ok st' ->
     adx_run (firstn k (map b_high rows)) (firstn k (map b_low rows)) (firstn k (map b_close rows)) w = Ok st ->
     let W := Z.to_nat w in let m := length rows + 1 - W in let m' := k + 1 - W in
     1 <= W <= k /\ length (adx_trs st) = m' /\ length (adx_dip st) = m' /\ length (adx_din st) = m' /\
     length (adx_trs st') = m /\ length (adx_dip st') = m /\ length (adx_din st') = m /\
     (S W <= k -> firstn (k - W) (adx_trs st) = firstn (k - W) (adx_trs st') /\
        firstn (k - W) (adx_dip st) = firstn (k - W) (adx_dip st') /\
        firstn (k - W) (adx_din st) = firstn (k - W) (adx_din st'))).
  { intros st st' R' R W m m'.
    destruct (adx_run_len _ _ _ _ _ R) as (B1 & B2 & B3 & B4 & B5 & B6).
    1,2: rewrite !firstn_length; lia.
    rewrite !firstn_length, Lc, Nat.min_l in * by lia.
    destruct (adx_run_len _ _ _ _ _ R') as (C1 & C2 & C3 & C4 & C5 & C6). 1,2: lia.
    rewrite Lc in *. subst W m m'. repeat split; auto; try lia;
    (destruct (N H0) as (N1 & N2 & N3);
     assert (E := adx_run_prefix k _ _ _ _ _ _ (eq_trans Lh (eq_sym Lc)) (eq_trans Ll (eq_sym Lc))
        (eq_ind_r (fun n => k <= n) Hk Lc) R' R H0 N1 N2 N3); unfold st_take in E; congruence). }
  destruct ind; try discriminate Hi; injection Hi as ->; cbn [compute] in H, H'; rewrite ?pf_map in H.
  - unfold adx in *.
    destruct (adx_run (firstn k _) _ _ _) as [st|] eqn:E; [|discriminate H].
    destruct (adx_run (map b_high rows) _ _ _) as [st'|] eqn:E'; [|discriminate H'].
    destruct (R _ _ eq_refl eq_refl) as (B1 & B2 & B3 & B4 & C2 & C3 & C4 & T).
    cbn [bind] in H, H'. rewrite B2 in H. rewrite C2 in H'.
    destruct (Nat.leb_spec (k + 1 - Z.to_nat w) (Z.to_nat w)); [discriminate|].
    destruct (Nat.leb_spec (length rows + 1 - Z.to_nat w) (Z.to_nat w)); [discriminate|].
    destruct (T ltac:(lia)) as (T1 & T2 & T3). clear T R N.
    set (W := Z.to_nat w) in *.
    set (di := map2 adx_dx (map2 adx_pct (adx_dip st) (adx_trs st)) (map2 adx_pct (adx_din st) (adx_trs st))) in *.
    set (di' := map2 adx_dx (map2 adx_pct (adx_dip st') (adx_trs st')) (map2 adx_pct (adx_din st') (adx_trs st'))) in *.
    assert (D : firstn (k - W) di = firstn (k - W) di').
    { subst di di'. rewrite <- !firstn_map2. now rewrite T1, T2, T3. }
    assert (D' : firstn W di = firstn W di').
    { assert (G := f_equal (firstn W) D). rewrite !firstn_firstn, Nat.min_l in G by lia. exact G. }
    injection H as <-. injection H' as <-. rewrite <- pf_check by (right; lia). f_equal.
    rewrite !app_assoc, repeat_app_eq, firstn_app, firstn_repeat, repeat_length, Nat.min_r by lia.
    f_equal. replace (k - (W - 1 + W)) with (S (k - 2 * W)) by lia. cbn [firstn].
    rewrite D'. f_equal. rewrite <- pf_adx_go, firstn_firstn. f_equal.
    rewrite !firstn_skipn_comm.
    replace (W + (k + 1 - W - 1 - W)) with (k - W) by lia.
    replace (W + Nat.min (k - 2 * W) (length rows + 1 - W - 1 - W)) with (k - W) by lia.
    now rewrite D.
  - unfold adx_pos in *.
    destruct (adx_run (firstn k _) _ _ _) as [st|] eqn:E; [|discriminate H].
    destruct (adx_run (map b_high rows) _ _ _) as [st'|] eqn:E'; [|discriminate H'].
    destruct (R _ _ eq_refl eq_refl) as (B1 & B2 & B3 & B4 & C2 & C3 & C4 & T).
    cbn [bind] in H, H'. injection H as <-. injection H' as <-.
    rewrite <- pf_check by (right; lia). f_equal.
    rewrite firstn_length, Lc, Nat.min_l by lia.
    apply adx_line_prefix; auto; try lia; intros G; apply (T G).
  - unfold adx_neg in *.
    destruct (adx_run (firstn k _) _ _ _) as [st|] eqn:E; [|discriminate H].
    destruct (adx_run (map b_high rows) _ _ _) as [st'|] eqn:E'; [|discriminate H'].
    destruct (R _ _ eq_refl eq_refl) as (B1 & B2 & B3 & B4 & C2 & C3 & C4 & T).
    cbn [bind] in H, H'. injection H as <-. injection H' as <-.
    rewrite <- pf_check by (right; lia). f_equal.
    rewrite firstn_length, Lc, Nat.min_l by lia.
    apply adx_line_prefix; auto; try lia; intros G; apply (T G).
Qed.

Lemma adx_no_lookahead : forall ind w fl rows more out out', adx_based ind = Some w ->
  rows_numeric w rows ->
  compute ind fl rows = Ok out -> compute ind fl (rows ++ more) = Ok out' ->
  firstn (length rows) out' = out.
Proof.
  intros. symmetry.
  assert (Hr : firstn (length rows) (rows ++ more) = rows)
    by (rewrite firstn_app, Nat.sub_diag, firstn_all; cbn [firstn]; now rewrite app_nil_r).
  eapply adx_prefix with (rows := rows ++ more); eauto; rewrite ?Hr; auto.
  rewrite app_length. lia.
Qed.
End AdxPrefix.
