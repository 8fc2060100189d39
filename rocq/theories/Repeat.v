(** * Repeat: markets that repeat themselves (C98). *)
From Verif Require Import Lists Api SpecNum SpecScale SpecMemory SpecRepeat SpecRaise Raises Rows Running Sar Halt Memory Local Units
  Tab Averages Range Oscillators Channels Bands Lines Flows Cycles OneWay.
Local Open Scope R_scope.

Lemma existsb_part : forall {B} (p : B -> bool) x y z, existsb p y = true -> existsb p (x ++ y ++ z) = true.
Proof. intros. rewrite !existsb_app, H. now rewrite Bool.orb_true_r. Qed.
Lemma section_ok : forall (ind : indicator xr) m before rows after out, memory ind = Some m ->
  compute ind false (before ++ rows ++ after) = Ok out -> exists o, compute ind false rows = Ok o.
Proof.
  intros ind m before rows after out M E.
  pose proof (raises_exactly ind false (before ++ rows ++ after) eq_refl) as R.
  pose proof (raises_exactly ind false rows eq_refl) as R'.
  assert (N : failing_check ind false (before ++ rows ++ after) = None).
  { destruct (failing_check ind false (before ++ rows ++ after)); [|reflexivity]. rewrite E in R. discriminate. }
  clear R. assert (N' : failing_check ind false rows = None).
  { clear R' E. assert (Q : forall f : bar xr -> xr, existsb is_number (map f rows) = true -> existsb is_number (map f (before ++ rows ++ after)) = true).
    { intros f H. rewrite !map_app. now apply existsb_part. }
    assert (L : negb (length rows =? 0)%nat = true -> negb (length (before ++ rows ++ after) =? 0)%nat = true).
    { rewrite !app_length. destruct (length rows); [discriminate|]. intros _. replace (length before + (S n + length after))%nat with (S (length before + n + length after))%nat by lia. reflexivity. }
    assert (X : forall w, first_failure [((w <? -1)%Z || ((w =? -1)%Z && (false || negb (length (before ++ rows ++ after) =? 0)%nat)), ValueError);
       ((w =? 0)%Z && (existsb is_number (map b_high (before ++ rows ++ after)) || existsb is_number (map b_low (before ++ rows ++ after))), ZeroDivisionError)] = None ->
      first_failure [((w <? -1)%Z || ((w =? -1)%Z && (false || negb (length rows =? 0)%nat)), ValueError);
       ((w =? 0)%Z && (existsb is_number (map b_high rows) || existsb is_number (map b_low rows)), ZeroDivisionError)] = None).
    { intros w. cbn [first_failure orb].
      destruct (w <? -1)%Z; cbn [orb]; [discriminate|].
      destruct (w =? -1)%Z; cbn [andb].
      - destruct (negb (length rows =? 0)%nat) eqn:Z; [rewrite L by auto; discriminate|].
        destruct (w =? 0)%Z; cbn [andb]; [|auto].
        destruct (negb (length (before ++ rows ++ after) =? 0)%nat); [discriminate|].
        destruct (existsb is_number (map b_high rows)) eqn:H1; [rewrite (Q _ H1); discriminate|].
        destruct (existsb is_number (map b_low rows)) eqn:H2; [rewrite (Q _ H2), Bool.orb_true_r; discriminate|auto].
      - destruct (w =? 0)%Z; cbn [andb]; [|auto].
        destruct (existsb is_number (map b_high rows)) eqn:H1; [rewrite (Q _ H1); discriminate|].
        destruct (existsb is_number (map b_low rows)) eqn:H2; [rewrite (Q _ H2), Bool.orb_true_r; discriminate|auto]. }
    destruct ind; cbn [memory] in M; try discriminate M; try exact N; try (destruct original_version; [exact N|discriminate M]); exact (X _ N). }
  rewrite N' in R'. exact R'.
Qed.

(** two sections k rows apart, related by a change that the series commutes with *)
Lemma sections : forall (ind : indicator xr) m (f : xr -> xr) (change : list (bar xr) -> list (bar xr)) k past rows out i,
  f NaN = NaN -> memory ind = Some m -> looks_back ind = true ->
  (forall rs, compute ind false (change rs) = rmap (map f) (compute ind false rs)) ->
  same_values (skipn k rows) (change (firstn (length rows - k) rows)) ->
  compute ind false (past ++ rows) = Ok out -> (m <= i)%nat -> (k + i < length rows)%nat ->
  nth (length past + (k + i)) out NaN = f (nth (length past + i) out NaN).
Proof.
  intros ind m f change k past rows out i F0 M B C S E Hm Hi.
  set (n := length rows) in *.
  assert (E1 : compute ind false (past ++ firstn (n - k) rows ++ skipn (n - k) rows) = Ok out) by now rewrite firstn_skipn.
  assert (E2 : compute ind false ((past ++ firstn k rows) ++ skipn k rows ++ []) = Ok out).
  { rewrite app_nil_r, <- app_assoc, firstn_skipn. exact E. }
  destruct (section_ok _ _ _ _ _ _ M E1) as [o1 O1]. destruct (section_ok _ _ _ _ _ _ M E2) as [o2 O2].
  pose proof (local_table ind m (or_introl windowed_xr) M B) as T.
  pose proof (T _ _ _ _ _ O1 E1 i) as T1. rewrite firstn_length in T1.
  pose proof (T _ _ _ _ _ O2 E2 i) as T2. rewrite skipn_length, app_length, firstn_length in T2.
  change (@fnan xr XR) with NaN in T1, T2. fold n in T1, T2.
  rewrite T1 by lia. replace (length past + (k + i))%nat with (length past + Nat.min k n + i)%nat by lia. rewrite T2 by lia.
  rewrite (labels_irrelevant _ _ ind false _ _ (memory_unlabelled _ _ M) S), C, O1 in O2. cbn [rmap] in O2.
  apply Ok_inj in O2. subst o2. rewrite <- F0 at 1. apply map_nth.
Qed.

Lemma same_values_nth : forall (xs ys : list (bar xr)), length xs = length ys ->
  (forall j a b, nth_error xs j = Some a -> nth_error ys j = Some b ->
     b_high a = b_high b /\ b_low a = b_low b /\ b_close a = b_close b /\ b_volume a = b_volume b) -> same_values xs ys.
Proof.
  unfold same_values. induction xs as [|x xs IH]; intros [|y ys] L H; try discriminate; constructor.
  - now apply (H 0%nat).
  - apply IH; [now injection L|]. intros j. exact (H (S j)).
Qed.
Lemma nth_error_firstn' : forall {B} j n (l : list B) x, nth_error (firstn n l) j = Some x -> nth_error l j = Some x.
Proof.
  induction j; intros [|n] [|y l] x; cbn; try discriminate; auto. apply IHj.
Qed.
Lemma nth_error_skipn' : forall {B} k (l : list B) j, nth_error (skipn k l) j = nth_error l (k + j)%nat.
Proof. induction k; intros [|x l] j; cbn; auto. now destruct j. Qed.
Lemma kth_rows : forall k (rows : list (bar xr)) (c : bar xr -> bar xr),
  (forall j a b, nth_error rows j = Some a -> nth_error rows (k + j) = Some b ->
     b_high b = b_high (c a) /\ b_low b = b_low (c a) /\ b_close b = b_close (c a) /\ b_volume b = b_volume (c a)) ->
  same_values (skipn k rows) (map c (firstn (length rows - k) rows)).
Proof.
  intros k rows c H. apply same_values_nth.
  - rewrite skipn_length, map_length, firstn_length. lia.
  - intros j a b Ha Hb. rewrite nth_error_skipn' in Ha. rewrite nth_error_map in Hb.
    destruct (nth_error (firstn _ rows) j) as [a'|] eqn:E; [|discriminate]. injection Hb as <-.
    apply nth_error_firstn' in E. exact (H j a' a E Ha).
Qed.

Lemma repeat_table : forall g q, 0 < g -> 0 < q -> forall ind m k past rows out i, log_is_ln ind ->
  memory ind = Some m -> looks_back ind = true -> repeats k g q rows ->
  compute ind false (past ++ rows) = Ok out -> (m <= i)%nat -> (k + i < length rows)%nat ->
  nth (length past + (k + i)) out NaN = times (factor ind g q) (nth (length past + i) out NaN).
Proof.
  intros g q Hg Hq ind m k past rows out i L M B R E Hm Hi.
  apply (sections ind m (times (factor ind g q)) (rescaled g q) k past rows out i); auto.
  - intros rs. now apply scaling.
  - apply kth_rows. exact R.
Qed.
Lemma times_one : forall x, times 1 x = x.
Proof. intros [| | |r]; cbn; auto. f_equal. ring. Qed.
Lemma climb_table : forall s ind m k past rows out i,
  memory ind = Some m -> looks_back ind = true -> climbs k s rows ->
  compute ind false (past ++ rows) = Ok out -> (m <= i)%nat -> (k + i < length rows)%nat ->
  match follows ind false with
  | Some true => nth (length past + (k + i)) out NaN = plus s (nth (length past + i) out NaN)
  | Some false => nth (length past + (k + i)) out NaN = nth (length past + i) out NaN
  | None => True
  end.
Proof.
  intros s ind m k past rows out i M B R E Hm Hi.
  assert (S : same_values (skipn k rows) (moved s (firstn (length rows - k) rows))) by (apply kth_rows; exact R).
  pose proof (translation s ind false) as T. destruct (follows ind false) as [[|]|]; auto.
  - exact (sections ind m (plus s) (moved s) k past rows out i eq_refl M B T S E Hm Hi).
  - apply (sections ind m (fun x => x) (moved s) k past rows out i eq_refl M B); auto.
    intros rs. rewrite T. destruct (compute ind false rs); cbn [rmap]; auto. now rewrite map_id.
Qed.

(** ** windows of whole periods *)

Lemma cyclic_times : forall k n f t, (1 <= t)%nat -> cyclic k n f -> cyclic (k * t) n f.
Proof.
  intros k n f t Ht C. induction t; [lia|]. destruct t; [now rewrite Nat.mul_1_r|].
  intros j Hj. replace (k * S (S t) + j)%nat with (k + (k * S t + j))%nat in * by lia. rewrite C by lia. apply IHt; lia.
Qed.
Section Cycle.
Variables (w n : nat).
Hypothesis W : (1 <= w)%nat.
Lemma wsum_cycle : forall f i, cyclic w n f -> (w - 1 <= i)%nat -> (S i < n)%nat -> wsum w f (S i) = wsum w f i.
Proof.
  intros f i C Hi Hn. unfold wsum, wlo, wlen. rewrite !Nat.min_l by lia. replace (S (S i) - w)%nat with (S (S i - w)) by lia.
  set (a := (S i - w)%nat). pose proof (rsum_first f a w) as E. cbn [rsum] in E.
  replace (a + w)%nat with (w + a)%nat in E by lia. rewrite C in E by lia. lra.
Qed.
Lemma wmean_cycle : forall f i, cyclic w n f -> (w - 1 <= i)%nat -> (S i < n)%nat -> wmean w f (S i) = wmean w f i.
Proof. intros. unfold wmean. rewrite wsum_cycle by auto. unfold wlen. now rewrite !Nat.min_l by lia. Qed.
Lemma wmax_cycle : forall f i, cyclic w n f -> (w - 1 <= i)%nat -> (S i < n)%nat -> wmax w f (S i) = wmax w f i.
Proof.
  intros f i C Hi Hn. apply Rle_antisym.
  - destruct (wmax_att w f (S i) W) as (j & Hj & ->). unfold wlo in Hj. destruct (Nat.eq_dec j (S i)) as [->|].
    + replace (S i) with (w + (S i - w))%nat by lia. rewrite C by lia. apply wmax_ge; auto. unfold wlo. lia.
    + apply wmax_ge; auto. unfold wlo. lia.
  - destruct (wmax_att w f i W) as (j & Hj & ->). unfold wlo in Hj. destruct (Nat.eq_dec j (S i - w)) as [->|].
    + rewrite <- C by lia. apply wmax_ge; auto. unfold wlo. lia.
    + apply wmax_ge; auto. unfold wlo. lia.
Qed.
Lemma wmin_cycle : forall f i, cyclic w n f -> (w - 1 <= i)%nat -> (S i < n)%nat -> wmin w f (S i) = wmin w f i.
Proof.
  intros f i C Hi Hn. apply Rle_antisym.
  - destruct (wmin_att w f i W) as (j & Hj & ->). unfold wlo in Hj. destruct (Nat.eq_dec j (S i - w)) as [->|].
    + rewrite <- C by lia. apply wmin_le; auto. unfold wlo. lia.
    + apply wmin_le; auto. unfold wlo. lia.
  - destruct (wmin_att w f (S i) W) as (j & Hj & ->). unfold wlo in Hj. destruct (Nat.eq_dec j (S i)) as [->|].
    + replace (S i) with (w + (S i - w))%nat by lia. rewrite C by lia. apply wmin_le; auto. unfold wlo. lia.
    + apply wmin_le; auto. unfold wlo. lia.
Qed.
Lemma wstd_cycle : forall f i, cyclic w n f -> (w - 1 <= i)%nat -> (S i < n)%nat -> wstd w f (S i) = wstd w f i.
Proof.
  intros f i C Hi Hn. unfold wstd. f_equal. rewrite (wmean_cycle f) by auto. apply wmean_cycle; auto.
  intros j Hj. now rewrite C.
Qed.
Variables h l c v : nat -> R.
Hypotheses (Ch : cyclic w n h) (Cl : cyclic w n l) (Cc : cyclic w n c) (Cv : cyclic w n v).
Lemma step_row : forall k g o i, o = tab n (fromx k g) -> (k <= w - 1)%nat -> (w - 1 <= i)%nat -> (S i < n)%nat -> g (S i) = g i ->
  nth (S i) o NaN = nth i o NaN.
Proof.
  intros k g o i -> Hk Hi Hn E. rewrite !nth_tab by lia. unfold fromx.
  destruct (Nat.ltb_spec (S i) k); [lia|]. destruct (Nat.ltb_spec i k); [lia|]. exact E.
Qed.
Lemma cycle_step : forall ind out i, levels_out (Z.of_nat w) ind -> compute ind false (frame n h l c v) = Ok out ->
  (w - 1 <= i)%nat -> (S i < n)%nat -> nth (S i) out NaN = nth i out NaN.
Proof.
  intros ind out i L E Hi Hn.
  assert (Ct : cyclic w n (typical h l c)) by (intros j Hj; unfold typical; now rewrite Ch, Cl, Cc by auto).
  assert (Cr : cyclic w n (fun i => h i - l i)) by (intros j Hj; now rewrite Ch, Cl by auto).
  assert (Cp : cyclic w n (fun i => typical h l c i * v i)) by (intros j Hj; now rewrite Ct, Cv by auto).
  assert (SH : forall z raw r o, shows false z raw r -> r = Ok o -> o = raw).
  { intros z raw r o (o' & E1 & E2) E3. rewrite E3 in E1. apply Ok_inj in E1. now subst. }
  assert (M : midrange w h l (S i) = midrange w h l i) by (unfold midrange; now rewrite wmax_cycle, wmin_cycle by auto).
  destruct ind; cbn [levels_out] in L; try contradiction;
    try (destruct window_dev as [| | |d]; try contradiction);
    try (destruct original_version; [|contradiction]); try (destruct offset; try contradiction); try subst window.
  - rewrite sma_formula in E by auto. apply Ok_inj in E. eapply step_row; [symmetry; exact E|unfold warm; lia|auto|auto|].
    cbv beta. now rewrite wmean_cycle.
  - destruct L as (-> & L2 & L3).
    pose proof (ichi_formula false w (Z.to_nat window2) (Z.to_nat window3) visual n h l c v W ltac:(lia) ltac:(lia)) as (Q & _).
    rewrite !Z2Nat.id in Q by lia. rewrite Q in E. apply Ok_inj in E. eapply step_row; [symmetry; exact E|unfold warm; lia|auto|auto|].
    cbv beta. now rewrite M.
  - destruct L as (-> & L2 & L3).
    pose proof (ichi_formula false (Z.to_nat window1) w (Z.to_nat window3) visual n h l c v ltac:(lia) W ltac:(lia)) as (_ & Q & _).
    rewrite !Z2Nat.id in Q by lia. rewrite Q in E. apply Ok_inj in E. eapply step_row; [symmetry; exact E|unfold warm; lia|auto|auto|].
    cbv beta. now rewrite M.
  - destruct (bb_formula false w d n h l c v W) as (Q & _). rewrite Q in E. apply Ok_inj in E.
    eapply step_row; [symmetry; exact E|unfold warm; lia|auto|auto|]. cbv beta. now rewrite wmean_cycle.
  - destruct (bb_formula false w d n h l c v W) as (_ & Q & _). rewrite Q in E. apply Ok_inj in E.
    eapply step_row; [symmetry; exact E|unfold warm; lia|auto|auto|]. cbv beta. now rewrite wmean_cycle, wstd_cycle.
  - destruct (bb_formula false w d n h l c v W) as (_ & _ & Q). rewrite Q in E. apply Ok_inj in E.
    eapply step_row; [symmetry; exact E|unfold warm; lia|auto|auto|]. cbv beta. now rewrite wmean_cycle, wstd_cycle.
  - eapply step_row; [exact (SH _ _ _ _ (bb_width_formula false w d n h l c v W) E)|unfold warm; lia|auto|auto|]. cbv beta. now rewrite wmean_cycle, wstd_cycle.
  - destruct (kc_bands_original false w window_atr multiplier n h l c v W) as (Q & _). rewrite Q in E. apply Ok_inj in E.
    eapply step_row; [symmetry; exact E|unfold warm; lia|auto|auto|]. cbv beta. now rewrite wmean_cycle.
  - destruct (kc_bands_original false w window_atr multiplier n h l c v W) as (_ & Q & _). rewrite Q in E. apply Ok_inj in E.
    eapply step_row; [symmetry; exact E|unfold warm; lia|auto|auto|]. cbv beta. now rewrite !wmean_cycle.
  - destruct (kc_bands_original false w window_atr multiplier n h l c v W) as (_ & _ & Q & _). rewrite Q in E. apply Ok_inj in E.
    eapply step_row; [symmetry; exact E|unfold warm; lia|auto|auto|]. cbv beta. now rewrite !wmean_cycle.
  - destruct (kc_width false w window_atr multiplier n h l c v W) as (Q & _).
    eapply step_row; [exact (SH _ _ _ _ Q E)|unfold warm; lia|auto|auto|]. cbv beta. now rewrite !wmean_cycle.
  - destruct (dc_bands false w n h l c v W) as (Q & _). rewrite Q in E. apply Ok_inj in E.
    eapply step_row; [symmetry; exact E|unfold warm; lia|auto|auto|]. cbv beta. now rewrite wmax_cycle.
  - destruct (dc_bands false w n h l c v W) as (_ & Q & _). rewrite Q in E. apply Ok_inj in E.
    eapply step_row; [symmetry; exact E|unfold warm; lia|auto|auto|]. cbv beta. now rewrite wmin_cycle.
  - destruct (dc_bands false w n h l c v W) as (_ & _ & Q). rewrite Q in E. apply Ok_inj in E.
    eapply step_row; [symmetry; exact E|unfold warm; lia|auto|auto|]. cbv beta. now rewrite wmax_cycle, wmin_cycle.
  - destruct (dc_width false w n h l c v W) as (Q & _).
    eapply step_row; [exact (SH _ _ _ _ Q E)|unfold warm; lia|auto|auto|]. cbv beta. now rewrite wmax_cycle, wmin_cycle, wmean_cycle.
  - eapply step_row; [exact (SH _ _ _ _ (vwap_formula false w n h l c v W) E)|unfold warm; lia|auto|auto|]. cbv beta.
    rewrite (wsum_cycle v), wsum_cycle; auto.
Qed.
End Cycle.
Lemma levels_memory : forall w ind, levels_out (Z.of_nat w) ind -> memory ind = Some (w - 1)%nat /\ looks_back ind = true.
Proof.
  intros w ind L. destruct ind; cbn [levels_out] in L; try contradiction;
    try (destruct window_dev as [| | |d]; try contradiction);
    try (destruct original_version; [|contradiction]); try (destruct offset; try contradiction); try (destruct L as (-> & _)); try subst window;
    cbn [memory looks_back]; (split; [f_equal; unfold back, lag; lia|reflexivity]).
Qed.
Lemma levels : forall k t ind past n h l c v out i j, (1 <= k)%nat -> (1 <= t)%nat ->
  cyclic k n h -> cyclic k n l -> cyclic k n c -> cyclic k n v -> levels_out (Z.of_nat (k * t)) ind ->
  compute ind false (past ++ frame n h l c v) = Ok out -> (k * t - 1 <= i)%nat -> (i <= j)%nat -> (j < n)%nat ->
  nth (length past + j) out NaN = nth (length past + i) out NaN.
Proof.
  intros k t ind past n h l c v out i j Hk Ht Ch Cl Cc Cv L E Hi Hij Hj.
  destruct (levels_memory _ _ L) as [M B]. set (rows := frame n h l c v) in *.
  assert (E' : compute ind false (past ++ rows ++ []) = Ok out) by now rewrite app_nil_r.
  destruct (section_ok _ _ _ _ _ _ M E') as [o O].
  assert (N : length rows = n) by apply len_tab.
  pose proof (local_table ind _ (or_introl windowed_xr) M B _ _ _ _ _ O E') as T. rewrite N in T. change (@fnan xr XR) with NaN in T.
  rewrite !T by lia. clear T E E'. assert (W : (1 <= k * t)%nat) by nia.
  apply cyclic_times with (t := t) in Ch, Cl, Cc, Cv; auto.
  induction j; [now replace i with 0%nat by lia|]. destruct (Nat.eq_dec i (S j)) as [->|]; [reflexivity|].
  rewrite <- IHj by lia. apply (cycle_step (k * t) n W h l c v Ch Cl Cc Cv ind o j L O); lia.
Qed.

(** ** exponential averages in a market of constant growth *)
Lemma exp_grow : forall al g f k, g <> 1 - al -> (forall j, (k <= j)%nat -> f (S j) = g * f j) -> forall t s, (s <= k)%nat ->
  exp_go al f s (k - s + t) - al * g / (g - (1 - al)) * f (k + t)%nat =
  (1 - al) ^ t * (exp_go al f s (k - s) - al * g / (g - (1 - al)) * f k).
Proof.
  intros al g f k A E t s Hs. induction t as [|t IH].
  - rewrite !Nat.add_0_r. ring.
  - replace (k - s + S t)%nat with (S (k - s + t)) by lia. cbn [exp_go pow].
    replace (s + S (k - s + t))%nat with (S (k + t)) by lia. replace (k + S t)%nat with (S (k + t)) by lia.
    rewrite E by lia.
    transitivity ((1 - al) * (exp_go al f s (k - s + t) - al * g / (g - (1 - al)) * f (k + t)%nat)).
    + field. lra.
    + rewrite IH. ring.
Qed.
Lemma exp_ext : forall al f f' s t, (forall j, (s <= j <= s + t)%nat -> f j = f' j) -> exp_go al f s t = exp_go al f' s t.
Proof.
  intros al f f' s t. induction t; intros H; cbn [exp_go]; [apply H; lia|].
  rewrite IHt by (intros; apply H; lia). now rewrite (H (s + S t)%nat) by lia.
Qed.
Lemma ema_grows : forall w n h l c v g k i out, (1 <= w)%nat -> INR w - 1 < (INR w + 1) * g -> (w - 1 <= k <= i)%nat -> (i < n)%nat ->
  (forall j, (k <= j)%nat -> (S j < n)%nat -> c (S j) = g * c j) ->
  compute (Ema (Z.of_nat w)) false (frame n h l c v) = Ok out ->
  let lead := 2 * g / ((INR w + 1) * g - (INR w - 1)) in
  exists e f, nth k out NaN = Fin e /\ nth i out NaN = Fin f /\
    f - lead * c i = ((INR w - 1) / (INR w + 1)) ^ (i - k) * (e - lead * c k).
Proof.
  intros w n h l c v g k i out Hw Hg Hk Hi C E lead. rewrite ema_formula in E by auto. apply Ok_inj in E. subst out.
  exists (ema w c 0 k), (ema w c 0 i). rewrite !nth_tab by lia.
  split; [apply from_ge; [unfold warm; lia|reflexivity]|]. split; [apply from_ge; [unfold warm; lia|reflexivity]|].
  assert (W : 1 <= INR w) by (change 1 with (INR 1); now apply le_INR).
  set (c' := fun j => if (j <=? k)%nat then c j else g ^ (j - k) * c k).
  assert (X : forall j, (j < n)%nat -> c j = c' j).
  { intros j Hj. unfold c'. destruct (Nat.leb_spec j k); [reflexivity|].
    replace j with (k + (j - k))%nat at 1 by lia. assert (Q : (k + (j - k) < n)%nat) by lia. clear Hj. clear H.
    induction (j - k)%nat as [|t IH]; [rewrite Nat.add_0_r; cbn; ring|].
    rewrite Nat.add_succ_r, C by lia. rewrite IH by lia. cbn [pow]. ring. }
  assert (G : forall j, (k <= j)%nat -> c' (S j) = g * c' j).
  { intros j Hj. unfold c'. destruct (Nat.leb_spec (S j) k); [lia|]. destruct (Nat.leb_spec j k).
    - replace j with k by lia. replace (S k - k)%nat with 1%nat by lia. cbn. ring.
    - replace (S j - k)%nat with (S (j - k)) by lia. cbn [pow]. ring. }
  unfold ema, expavg. rewrite !Nat.sub_0_r.
  rewrite (exp_ext _ c c' 0 k) by (intros; apply X; lia). rewrite (exp_ext _ c c' 0 i) by (intros; apply X; lia).
  rewrite (X i), (X k) by lia.
  pose proof (exp_grow (2 / (INR w + 1)) g c' k) as P.
  assert (A1 : 1 - 2 / (INR w + 1) = (INR w - 1) / (INR w + 1)) by (field; lra).
  assert (A2 : g <> 1 - 2 / (INR w + 1)).
  { rewrite A1. intros ->. replace ((INR w + 1) * ((INR w - 1) / (INR w + 1))) with (INR w - 1) in Hg by (field; lra). lra. }
  specialize (P A2 G (i - k)%nat 0%nat ltac:(lia)). rewrite A1 in P. rewrite !Nat.sub_0_r in P. replace (k + (i - k))%nat with i in P by lia.
  replace (2 / (INR w + 1) * g / (g - (INR w - 1) / (INR w + 1))) with lead in P; [exact P|].
  unfold lead. field. repeat split; lra.
Qed.
