(** * IntProofs: OBV, ADI and CMF on integer columns (C100). *)
From Coq Require Import Floats.
From Verif Require Import Lists Api SpecNum IntColumns SpecInt Tab Averages Bands Flows Stuck Halt.
Local Open Scope Z_scope.

(** ** wrapping *)
Lemma wrap_mod : forall t z, 0 < width t -> wrap t z mod 2 ^ width t = z mod 2 ^ width t.
Proof.
  intros t z W. unfold wrap. assert (P : 2 ^ width t <> 0) by (apply Z.pow_nonzero; lia). destruct (_ && _).
  - rewrite <- Zminus_mod_idemp_r, Z_mod_same_full, Z.sub_0_r. now apply Z.mod_mod.
  - now apply Z.mod_mod.
Qed.
Definition fits (t : dtype) (z : Z) : Prop :=
  if is_signed t then - 2 ^ (width t - 1) <= z < 2 ^ (width t - 1) else 0 <= z < 2 ^ width t.
Lemma half : forall w, 0 < w -> 2 ^ w = 2 * 2 ^ (w - 1).
Proof. intros w W. rewrite <- Z.pow_succ_r by lia. f_equal. lia. Qed.
Lemma wrap_fits : forall t z, 0 < width t -> fits t z -> wrap t z = z.
Proof.
  intros [s w] z W H. unfold wrap, fits in *. cbn [is_signed width] in *. pose proof (half w W). destruct s; cbn [andb] in *.
  - destruct (Z.leb_spec (2 ^ (w - 1)) (z mod 2 ^ w)) as [L|L].
    + destruct (Z.lt_ge_cases z 0) as [N|N].
      * replace z with (z + 2 ^ w + (-1) * 2 ^ w) at 1 by ring. rewrite Z_mod_plus_full, Z.mod_small by lia. lia.
      * rewrite Z.mod_small in L by lia. lia.
    + destruct (Z.lt_ge_cases z 0) as [N|N].
      * replace z with (z + 2 ^ w + (-1) * 2 ^ w) in L by ring. rewrite Z_mod_plus_full, Z.mod_small in L by lia. lia.
      * now rewrite Z.mod_small by lia.
  - now rewrite Z.mod_small by lia.
Qed.
Lemma wrap_unsigned : forall t z, is_signed t = false -> wrap t z = z mod 2 ^ width t.
Proof. intros t z S. unfold wrap. now rewrite S. Qed.
Lemma wrap_eq : forall t y z, y mod 2 ^ width t = z mod 2 ^ width t -> wrap t y = wrap t z.
Proof. intros t y z H. unfold wrap. now rewrite H. Qed.

(** ** running sums *)
Lemma zsum_ext : forall f g k, (forall j, (j < k)%nat -> f j = g j) -> zsum f k = zsum g k.
Proof. induction k; intros H; cbn [zsum]; auto. rewrite IHk, (H k); auto. Qed.
Lemma zsum_le : forall f g k, (forall j, (j < k)%nat -> f j <= g j) -> zsum f k <= zsum g k.
Proof. induction k; intros H; cbn [zsum]; [lia|]. pose proof (H k ltac:(lia)). specialize (IHk ltac:(auto)). lia. Qed.
Lemma zsum_lin : forall f g a k, zsum (fun j => f j + a * g j) k = zsum f k + a * zsum g k.
Proof. induction k; cbn [zsum]; [lia|]. rewrite IHk. lia. Qed.
Lemma zsum_first : forall f k, zsum f (S k) = f O + zsum (fun j => f (S j)) k.
Proof. induction k; [cbn; lia|]. change (zsum f (S (S k))) with (zsum f (S k) + f (S k)). rewrite IHk. cbn [zsum]. lia. Qed.
Lemma cumsum_int_mod : forall t s, 0 < width t -> forall acc i, (i < length s)%nat ->
  nth i (cumsum_int t acc s) 0 = wrap t (acc + zsum (fun j => nth j s 0) (S i)).
Proof.
  intros t. induction s as [|x s IH]; intros W acc i Hi; cbn [length] in Hi; [lia|]. cbn [cumsum_int]. rewrite zsum_first. destruct i as [|i]; cbn [nth].
  - cbn [zsum]. f_equal. lia.
  - rewrite IH by (auto; lia). apply wrap_eq. rewrite <- Zplus_mod_idemp_l, wrap_mod, Zplus_mod_idemp_l by auto. f_equal. cbn [nth]. lia.
Qed.
Lemma len_cumsum_int : forall t s acc, length (cumsum_int t acc s) = length s.
Proof. induction s; intros; cbn; auto. Qed.

Lemma fell_shift : forall {F} {A : Arith F} {L : ArithLaws F} (close : list F) j, (j < length close)%nat -> fltb (nth j close fnan) (nth j (shift 1 close) fnan) = fell close j.
Proof.
  intros F A L close [|j] Hj.
  - cbn [fell]. destruct close; [cbn in Hj; lia|]. cbn. apply ltb_nan_r, isnan_nan.
  - cbn [fell]. rewrite Stuck.nth_shift1 by lia. cbn [Nat.sub]. now rewrite Nat.sub_0_r.
Qed.
Section Obv.
Context {F : Type} {A : Arith F} {L : ArithLaws F}.
Variables (t : dtype) (close : list F) (volume : list Z).
Hypothesis W : 0 < width t <= 64.
Hypothesis LEN : length volume = length close.
Definition row (j : nat) : Z := if fell close j then wrap t (- nth j volume 0) else nth j volume 0.
Lemma obv_int_length : length (on_balance_volume_int t close volume) = length close.
Proof. unfold on_balance_volume_int. rewrite len_cumsum_int, length_map3, LEN, len_shift1. lia. Qed.
Lemma obv_int : forall i, (i < length close)%nat ->
  nth i (on_balance_volume_int t close volume) 0 = wrap (mkdtype (is_signed t) 64) (zsum row (S i)).
Proof.
  intros i Hi. unfold on_balance_volume_int. rewrite cumsum_int_mod; [|cbn; lia|rewrite length_map3, len_shift1; lia].
  f_equal. rewrite Z.add_0_l. apply zsum_ext. intros j Hj.
  rewrite (nth_map3_lt _ _ _ _ _ _ fnan fnan 0) by (rewrite ?len_shift1; lia). rewrite fell_shift by lia. reflexivity.
Qed.

Lemma balance_turnover : forall i, (forall j, (j <= i)%nat -> 0 <= nth j volume 0) -> Z.abs (balance close volume i) <= turnover volume i.
Proof.
  intros i V. unfold balance, turnover. apply Z.abs_le. split.
  - assert (E : - zsum (fun j => nth j volume 0) (S i) = zsum (fun j => 0 + -1 * nth j volume 0) (S i)).
    { rewrite zsum_lin. replace (zsum (fun _ => 0) (S i)) with 0; [lia|]. clear. induction (S i); cbn [zsum]; lia. }
    rewrite E. apply zsum_le. intros j Hj. specialize (V j ltac:(lia)). destruct (fell close j); lia.
  - apply zsum_le. intros j Hj. specialize (V j ltac:(lia)). destruct (fell close j); lia.
Qed.
Lemma obv_signed : is_signed t = true -> forall i, (i < length close)%nat -> (forall j, (j <= i)%nat -> 0 <= nth j volume 0 < 2 ^ (width t - 1)) ->
  let shown := nth i (on_balance_volume_int t close volume) 0 in
  (shown - balance close volume i) mod 2 ^ 64 = 0 /\ (turnover volume i < 2 ^ 63 -> shown = balance close volume i).
Proof.
  intros S i Hi V shown.
  assert (E : shown = wrap int64 (balance close volume i)).
  { unfold shown. rewrite obv_int by auto. rewrite S. unfold int64, balance. f_equal. apply zsum_ext. intros j Hj. unfold row.
    destruct (fell close j); auto. apply wrap_fits; [lia|]. unfold fits. rewrite S. specialize (V j ltac:(lia)). lia. }
  split.
  - rewrite E. change 64 with (width int64). rewrite <- Zminus_mod_idemp_l, wrap_mod, Zminus_mod_idemp_l, Z.sub_diag by (cbn; lia). reflexivity.
  - intros T. rewrite E. apply wrap_fits; [cbn; lia|]. unfold fits, int64. cbn [is_signed width]. change (64 - 1) with 63.
    pose proof (balance_turnover i ltac:(intros; apply V; auto)). lia.
Qed.
Lemma obv_unsigned : is_signed t = false -> forall i, (i < length close)%nat -> (forall j, (j <= i)%nat -> 0 <= nth j volume 0 < 2 ^ width t) ->
  nth i (on_balance_volume_int t close volume) 0 = (balance close volume i + 2 ^ width t * falls close volume i) mod 2 ^ 64.
Proof.
  intros S i Hi V. rewrite obv_int by auto. rewrite wrap_unsigned by auto. cbn [width]. f_equal. unfold balance, falls. rewrite <- zsum_lin.
  apply zsum_ext. intros j Hj. unfold row. specialize (V j ltac:(lia)). destruct (fell close j); cbn [andb]; [|lia].
  rewrite wrap_unsigned by auto. destruct (Z.eqb_spec (nth j volume 0) 0) as [->|NZ]; cbn [negb]; [rewrite Z.mod_0_l; lia|].
  rewrite Z.mod_opp_l_nz; rewrite ?Z.mod_small; lia.
Qed.
End Obv.
Lemma zsum_zero : forall k, zsum (fun _ => 0) k = 0.
Proof. induction k; cbn [zsum]; lia. Qed.
Lemma obv_uint64 : forall {F} {A : Arith F} {L : ArithLaws F} (close : list F) volume i, length volume = length close -> (i < length close)%nat ->
  (forall j, (j <= i)%nat -> 0 <= nth j volume 0) -> turnover volume i < 2 ^ 64 ->
  let shown := nth i (on_balance_volume_int uint64 close volume) 0 in
  (0 <= balance close volume i -> shown = balance close volume i) /\ (balance close volume i < 0 -> shown = balance close volume i + 2 ^ 64).
Proof.
  intros F A L close volume i LEN Hi V T shown. pose proof (balance_turnover close volume LEN i V) as B.
  assert (V' : forall j, (j <= i)%nat -> 0 <= nth j volume 0 < 2 ^ 64).
  { intros j Hj. split; [now apply V|]. eapply Z.le_lt_trans; [|exact T]. unfold turnover. revert Hj V. clear. induction i; intros Hj V.
    - replace j with O by lia. cbn [zsum]. lia.
    - change (zsum ?f (S (S i))) with (zsum f (S i) + f (S i)). pose proof (V (S i) ltac:(lia)).
      assert (0 <= zsum (fun j => nth j volume 0) (S i)) by (etransitivity; [|apply (zsum_le (fun _ => 0)); intros; apply V; lia]; rewrite zsum_zero; lia).
      destruct (Nat.eq_dec j (S i)) as [->|]; [lia|]. specialize (IHi ltac:(lia) ltac:(intros; apply V; lia)). lia. }
  unfold shown. rewrite (obv_unsigned uint64 close volume ltac:(cbn; lia) LEN eq_refl i Hi V'). change (width uint64) with 64.
  rewrite Z.mul_comm, Z_mod_plus_full. split; intros H.
  - apply Z.mod_small. lia.
  - rewrite <- (Z_mod_plus_full _ 1). rewrite Z.mul_1_l. apply Z.mod_small. lia.
Qed.
Lemma obv_narrow : forall {F} {A : Arith F} {L : ArithLaws F} w (close : list F) volume i, 0 < w < 64 -> length volume = length close -> (i < length close)%nat ->
  (forall j, (j <= i)%nat -> 0 <= nth j volume 0 < 2 ^ w) -> Z.of_nat (S i) <= 2 ^ (64 - w) ->
  let shown := nth i (on_balance_volume_int (mkdtype false w) close volume) 0 in
  shown = balance close volume i + 2 ^ w * falls close volume i /\ (shown = balance close volume i <-> falls close volume i = 0).
Proof.
  intros F A L w close volume i W LEN Hi V T shown.
  assert (E : shown = balance close volume i + 2 ^ w * falls close volume i).
  { unfold shown. rewrite (obv_unsigned (mkdtype false w) close volume ltac:(cbn; lia) LEN eq_refl i Hi V). cbn [width]. apply Z.mod_small.
    unfold balance, falls. rewrite <- zsum_lin. assert (P : 0 < 2 ^ w) by (apply Z.pow_pos_nonneg; lia).
    assert (Q : forall j, (j < S i)%nat -> 0 <= (if fell close j then - nth j volume 0 else nth j volume 0) +
       2 ^ w * (if fell close j && negb (nth j volume 0 =? 0) then 1 else 0) <= 2 ^ w - 1).
    { intros j Hj. specialize (V j ltac:(lia)). destruct (fell close j); cbn [andb]; [|lia]. destruct (Z.eqb_spec (nth j volume 0) 0) as [->|]; cbn [negb]; lia. }
    assert (C : zsum (fun _ => 2 ^ w - 1) (S i) = Z.of_nat (S i) * (2 ^ w - 1)).
    { clear. induction (S i) as [|k IH]; cbn [zsum]; [lia|]. rewrite IH. lia. }
    split.
    - etransitivity; [|apply (zsum_le (fun _ => 0)); intros j Hj; apply (proj1 (Q j Hj))]. rewrite zsum_zero. lia.
    - eapply Z.le_lt_trans; [apply zsum_le; intros j Hj; apply (proj2 (Q j Hj))|]. rewrite C.
      replace (2 ^ 64) with (2 ^ (64 - w) * 2 ^ w) by (rewrite <- Z.pow_add_r by lia; f_equal; lia). nia. }
  split; [exact E|]. rewrite E. assert (0 < 2 ^ w) by (apply Z.pow_pos_nonneg; lia). nia.
Qed.

(** ** integer volumes and float volumes *)
Lemma rsum_zsum : forall f k, rsum (fun j => IZR (f j)) 0 k = IZR (zsum f k).
Proof. induction k; cbn [rsum zsum]; auto. rewrite IHk, plus_IZR. reflexivity. Qed.
Lemma obv_xr : forall (close : list xr) ks fl, length ks = length close ->
  on_balance_volume close (map (fun k => Fin (IZR k)) ks) fl = Ok (tab (length close) (from 0 (fun i => IZR (balance close ks i)))).
Proof.
  intros close ks fl LEN. unfold on_balance_volume.
  replace (map3 _ _ _ _) with (tab (length close) (from 0 (fun j => IZR (if fell close j then - nth j ks 0 else nth j ks 0)))).
  - rewrite cumsum_from, Bands.check_fin by (reflexivity || lia). f_equal. apply Tab.from_ext. intros i Hi.
    rewrite Nat.sub_0_r. apply (rsum_zsum (fun j => if fell close j then - nth j ks 0 else nth j ks 0)).
  - symmetry. apply list_tab with NaN.
    + rewrite length_map3, len_shift1, map_length. lia.
    + intros j Hj. rewrite (nth_map3_lt _ _ _ _ _ _ fnan fnan (Fin (IZR 0))) by (rewrite ?len_shift1, ?map_length; lia).
      rewrite (map_nth (fun k => Fin (IZR k))), fell_shift by (apply _ || lia). unfold from, fromx. cbn [Nat.ltb Nat.leb].
      destruct (fell close j); [|reflexivity]. cbn [fopp XR xopp]. now rewrite opp_IZR.
Qed.

(** ** integer prices: ADI and CMF *)
Local Open Scope R_scope.
Lemma clv_rows : forall t n h l c g, (forall i, (i < n)%nat -> (wrap t (h i - l i) = h i - l i)%Z) -> (forall i, (i < n)%nat -> (l i <= c i <= h i)%Z) ->
  (forall i, (i < n)%nat -> IZR (wrap t (wrap t (c i - l i) - wrap t (h i - c i))) = g i * IZR (h i - l i)) ->
  (forall i, (i < n)%nat -> h i = l i -> g i = 0) ->
  clv_int t (ztab n h) (ztab n l) (ztab n c) = tab n (from 0 g).
Proof.
  intros t n h l c g W O N ZE. unfold clv_int, fillna_const, ztab.
  assert (M : forall (f : Z -> Z -> Z -> xr), map3 f (map h (seq 0 n)) (map l (seq 0 n)) (map c (seq 0 n)) = tab n (fun i => f (h i) (l i) (c i))).
  { intros f. unfold tab. induction (seq 0 n); cbn [map map3]; auto. now rewrite IHl0. }
  rewrite M, map_tab. apply tab_ext. intros i Hi. rewrite W by auto. cbn [fofZ XR fdiv]. rewrite N by auto.
  unfold from, fromx. cbn [Nat.ltb Nat.leb]. specialize (O i Hi). specialize (ZE i Hi).
  destruct (Z.eq_dec (h i) (l i)) as [E|E].
  - rewrite ZE by auto. rewrite E, Z.sub_diag, Rmult_0_l. cbn [xdiv]. destruct (Req_EM_T 0 0); [|lra]. unfold rsign. repeat (destruct Rlt_dec; [lra|]). reflexivity.
  - assert (D : 0 < IZR (h i - l i)) by (apply IZR_lt; lia). cbn [xdiv]. destruct (Req_EM_T _ _); [lra|]. cbn [fisnan XR xisnan]. f_equal. field. lra.
Qed.

Lemma location_num : forall h l c i, (l i < h i)%Z -> location (zr h) (zr l) (zr c) i * IZR (h i - l i) = IZR (2 * c i - (h i + l i)).
Proof.
  intros h l c i H. unfold location, zr. assert (IZR (l i) < IZR (h i)) by now apply IZR_lt. destruct (Req_EM_T _ _); [lra|].
  rewrite !minus_IZR, plus_IZR, mult_IZR. field. lra.
Qed.
Lemma location_flat : forall h l c i, h i = l i -> location (zr h) (zr l) (zr c) i = 0.
Proof. intros h l c i H. unfold location, zr. rewrite H. destruct (Req_EM_T _ _); lra. Qed.
Lemma clv_signed : forall t n h l c, is_signed t = true -> (1 < width t)%Z -> zsane (width t - 1) n h l c ->
  clv_int t (ztab n h) (ztab n l) (ztab n c) = tab n (from 0 (location (zr h) (zr l) (zr c))).
Proof.
  intros t n h l c S W H. assert (P := Z.pow_pos_nonneg 2 (width t - 1) ltac:(lia) ltac:(lia)).
  assert (B : forall i, (i < n)%nat -> forall z, (- (h i - l i) <= z <= h i - l i)%Z -> wrap t z = z).
  { intros i Hi z Hz. specialize (H i Hi). apply wrap_fits; [lia|]. unfold fits. rewrite S. lia. }
  apply clv_rows.
  - intros i Hi. specialize (H i Hi) as H'. apply (B i); auto; lia.
  - intros i Hi. specialize (H i Hi). lia.
  - intros i Hi. specialize (H i Hi) as H'. rewrite !(B i Hi) by (rewrite ?(B i Hi) by lia; lia).
    destruct (Z.eq_dec (h i) (l i)) as [E|E].
    + rewrite location_flat by auto. rewrite Rmult_0_l. f_equal. lia.
    + rewrite location_num by lia. f_equal. lia.
  - intros i Hi. apply location_flat.
Qed.
Lemma clv_unsigned : forall t n h l c, is_signed t = false -> (0 < width t)%Z -> zsane (width t) n h l c ->
  clv_int t (ztab n h) (ztab n l) (ztab n c) = tab n (from 0 (lifted (width t) h l c)).
Proof.
  intros t n h l c S W H.
  apply clv_rows.
  - intros i Hi. specialize (H i Hi). rewrite wrap_unsigned, Z.mod_small by (auto; lia). reflexivity.
  - intros i Hi. specialize (H i Hi). lia.
  - intros i Hi. specialize (H i Hi). rewrite !wrap_unsigned by auto. rewrite <- Zminus_mod. unfold lifted.
    replace (c i - l i - (h i - c i))%Z with (2 * c i - (h i + l i))%Z by lia.
    destruct (Z.eq_dec (h i) (l i)) as [E|E].
    + rewrite location_flat by auto. destruct (Z.ltb_spec (2 * c i) (h i + l i)); [lia|]. rewrite Rplus_0_r, Rmult_0_l. f_equal.
      replace (2 * c i - (h i + l i))%Z with 0%Z by lia. apply Z.mod_0_l. apply Z.pow_nonzero; lia.
    + rewrite Rmult_plus_distr_r, location_num by lia. assert (0 < IZR (h i - l i)) by (apply IZR_lt; lia).
      destruct (Z.ltb_spec (2 * c i) (h i + l i)).
      * replace (IZR (2 ^ width t) / IZR (h i - l i) * IZR (h i - l i)) with (IZR (2 ^ width t)) by (field; lra). rewrite <- plus_IZR. f_equal.
        rewrite <- (Z_mod_plus_full _ 1), Z.mul_1_l. apply Z.mod_small. lia.
      * rewrite Rmult_0_l, Rplus_0_r. f_equal. apply Z.mod_small. lia.
  - intros i Hi E. unfold lifted. rewrite location_flat by auto. specialize (H i Hi). destruct (Z.ltb_spec (2 * c i) (h i + l i)); [lia|]. ring.
Qed.
Lemma sane_zr : forall b n h l c, zsane b n h l c -> sane n (zr h) (zr l) (zr c).
Proof. intros b n h l c H i Hi. specialize (H i Hi). unfold zr. split; apply IZR_le; lia. Qed.
Lemma adi_signed : forall t fl n h l c v, is_signed t = true -> (1 < width t)%Z -> zsane (width t - 1) n h l c ->
  Ok (acc_dist_index_int t (ztab n h) (ztab n l) (ztab n c) (tab n (from 0 v)) fl) = compute Adi fl (frame n (zr h) (zr l) (zr c) v).
Proof.
  intros. rewrite adi_formula by (eapply sane_zr; eauto). unfold acc_dist_index_int. rewrite clv_signed by auto. rewrite smul_from, cumsum_from. cbn [Nat.max].
  now rewrite Bands.check_fin by (reflexivity || lia).
Qed.
Lemma adi_unsigned : forall t fl n h l c v, is_signed t = false -> (0 < width t)%Z -> zsane (width t) n h l c ->
  acc_dist_index_int t (ztab n h) (ztab n l) (ztab n c) (tab n (from 0 v)) fl =
  tab n (from 0 (fun i => rsum (fun j => lifted (width t) h l c j * v j) 0 (S i))).
Proof.
  intros. unfold acc_dist_index_int. rewrite clv_unsigned by auto. rewrite smul_from, cumsum_from. cbn [Nat.max].
  now rewrite Bands.check_fin by (reflexivity || lia).
Qed.
Lemma cmf_signed : forall t w fl n h l c v, is_signed t = true -> (1 < width t)%Z -> zsane (width t - 1) n h l c -> (1 <= w)%nat ->
  chaikin_money_flow_int t (ztab n h) (ztab n l) (ztab n c) (tab n (from 0 v)) (Z.of_nat w) fl = compute (Cmf (Z.of_nat w)) fl (frame n (zr h) (zr l) (zr c) v).
Proof.
  intros t w fl n h l c v S W H Hw. cbn [compute]. cols. unfold chaikin_money_flow, chaikin_money_flow_int.
  rewrite clv_signed by auto. rewrite clv_tab by (eapply sane_zr; eauto). reflexivity.
Qed.
Lemma cmf_unsigned : forall t w fl n h l c v, is_signed t = false -> (0 < width t)%Z -> zsane (width t) n h l c -> (1 <= w)%nat ->
  shows fl 0 (tab n (fromx (warm fl w) (fun i => ratio (wsum w (fun j => lifted (width t) h l c j * v j) i) (wsum w v i))))
    (chaikin_money_flow_int t (ztab n h) (ztab n l) (ztab n c) (tab n (from 0 v)) (Z.of_nat w) fl).
Proof.
  intros t w fl n h l c v S W H Hw. unfold chaikin_money_flow_int. rewrite clv_unsigned by auto. rewrite smul_from. cbn [Nat.max].
  rewrite !sum_tab by auto. cbn [bind]. rewrite sdiv_from, Nat.max_id. apply Oscillators.shows_check; (reflexivity || lia).
Qed.

Lemma kama_never : forall {F} {A : Arith F} t close w p1 p2 fl,
  (forall out : list F, kama_int t close w p1 p2 fl <> Done (Ok out)) /\ ((0 <= w)%Z -> @kama_int F A t close w p1 p2 fl = UFuncTypeError).
Proof.
  intros F A t close w p1 p2 fl. unfold kama_int. split.
  - intros out. destruct (rolling _ _ _ _); discriminate.
  - intros W. unfold rolling. replace (_ || _ || _) with false; [reflexivity|]. symmetry. unfold minp_of.
    rewrite !Bool.orb_false_iff. destruct fl; repeat split; apply Z.ltb_ge; lia.
Qed.
