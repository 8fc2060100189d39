(** * ApartProofs: columns with their own indexes (C102). *)
From Coq Require Import Lia Sorting.Sorted.
From Verif Require Import Lists Align Apart SpecApart.
Local Open Scope f_scope.

Section Labels.
Implicit Types (ls ms : list Z).
Lemma in_insert : forall t u ls, In u (insert t ls) <-> u = t \/ In u ls.
Proof.
  intros t u ls. induction ls as [|y ls IH]; cbn [insert In]; [intuition|].
  destruct (Z.ltb_spec t y); [cbn [In]; intuition|]. destruct (Z.eqb_spec t y); [subst; cbn [In]; intuition|].
  cbn [In]. rewrite IH. intuition.
Qed.
Lemma in_union : forall u ls ms, In u (union ls ms) <-> In u ls \/ In u ms.
Proof. intros u ls ms. induction ms as [|y ms IH]; cbn [union fold_right In]; [tauto|]. rewrite in_insert. fold (union ls ms). rewrite IH. intuition. Qed.
Lemma insert_sorted : forall t ls, StronglySorted Z.lt ls -> StronglySorted Z.lt (insert t ls).
Proof.
  intros t ls S. induction S as [|y ls S IH H]; cbn [insert]; [repeat constructor|].
  destruct (Z.ltb_spec t y); [constructor; [constructor; assumption|constructor; [assumption|]];
    eapply Forall_impl; [|exact H]; cbn; lia|].
  destruct (Z.eqb_spec t y); [constructor; assumption|]. constructor; [exact IH|].
  apply Forall_forall. intros u U. apply in_insert in U as [->|U]; [lia|]. rewrite Forall_forall in H. apply H, U.
Qed.
Lemma union_sorted : forall ls ms, StronglySorted Z.lt ls -> StronglySorted Z.lt (union ls ms).
Proof. intros ls ms S. induction ms as [|y ms IH]; cbn [union fold_right]; [exact S|]. apply insert_sorted, IH. Qed.
Lemma insert_here : forall t ls, StronglySorted Z.lt ls -> In t ls -> insert t ls = ls.
Proof.
  intros t ls S. induction S as [|y ls S IH H]; intros I; [destruct I|]. cbn [insert].
  rewrite Forall_forall in H. destruct I as [->|I]; [rewrite Z.ltb_irrefl, Z.eqb_refl; reflexivity|].
  pose proof (H t I). destruct (Z.ltb_spec t y); [lia|]. destruct (Z.eqb_spec t y); [reflexivity|]. rewrite IH by exact I. reflexivity.
Qed.
Lemma union_incl : forall ls ms, StronglySorted Z.lt ls -> incl ms ls -> union ls ms = ls.
Proof.
  intros ls ms S. induction ms as [|y ms IH]; intros I; cbn [union fold_right]; [reflexivity|]. fold (union ls ms).
  rewrite IH by (intros u U; apply I; right; exact U). apply insert_here; [exact S|]. apply I. left. reflexivity.
Qed.
Lemma sorted_nodup : forall ls, StronglySorted Z.lt ls -> NoDup ls.
Proof.
  intros ls S. induction S as [|y ls S IH H]; constructor; [|exact IH]. intros I. rewrite Forall_forall in H. specialize (H y I). lia.
Qed.
(** increasing lists with the same members are equal *)
Lemma sorted_ext : forall ls ms, StronglySorted Z.lt ls -> StronglySorted Z.lt ms -> (forall t, In t ls <-> In t ms) -> ls = ms.
Proof.
  intros ls ms S. revert ms. induction S as [|y ls S IH H]; intros ms T E.
  - destruct ms as [|z ms]; [reflexivity|]. exfalso. apply (E z). left. reflexivity.
  - inversion T as [|z ms' T' H' X]; subst; [exfalso; apply (proj1 (E y)); left; reflexivity|].
    rewrite Forall_forall in H, H'.
    assert (y = z).
    { destruct (proj1 (E y) (or_introl eq_refl)) as [->|I]; [reflexivity|]. destruct (proj2 (E z) (or_introl eq_refl)) as [->|J]; [reflexivity|].
      specialize (H z J). specialize (H' y I). lia. }
    subst z. f_equal. apply IH; [exact T'|]. intros t. split; intros I.
    + destruct (proj1 (E t) (or_intror I)) as [->|J]; [|exact J]. specialize (H t I). lia.
    + destruct (proj2 (E t) (or_intror I)) as [->|J]; [|exact J]. specialize (H' t I). lia.
Qed.
End Labels.

Section Apart.
Context {F : Type} {A : Arith F}.
Implicit Types (a b : column F) (ls : list Z).

Lemma labels_combine : forall ls (x : list F), length x = length ls -> labels (combine ls x) = ls.
Proof. induction ls as [|t ls IH]; intros [|y x] H; try discriminate H; cbn; [reflexivity|]. f_equal. apply IH. injection H as H. exact H. Qed.
Lemma values_combine : forall ls (x : list F), length x = length ls -> values (combine ls x) = x.
Proof. induction ls as [|t ls IH]; intros [|y x] H; try discriminate H; cbn; [reflexivity|]. f_equal. apply IH. injection H as H. exact H. Qed.
Lemma split_column : forall a, a = combine (labels a) (values a).
Proof. induction a as [|[t x] a IH]; cbn; [reflexivity|]. f_equal. exact IH. Qed.
Lemma len_labels : forall a, length (labels a) = length a.
Proof. intros. apply map_length. Qed.
Lemma len_values : forall a, length (values a) = length a.
Proof. intros. apply map_length. Qed.

Lemma row_notin : forall a t, ~ In t (labels a) -> row a t = fnan.
Proof.
  induction a as [|[u x] a IH]; intros t N; cbn [row]; [reflexivity|]. destruct (Z.eqb_spec t u) as [->|E].
  - exfalso. apply N. left. reflexivity.
  - apply IH. intros I. apply N. right. exact I.
Qed.
Lemma map_row : forall ls (x : list F), NoDup ls -> length x = length ls -> map (row (combine ls x)) ls = x.
Proof.
  induction ls as [|t ls IH]; intros [|y x] N E; try discriminate E; [reflexivity|]. inversion N as [|? ? N1 N2]; subst.
  cbn [combine map row]. rewrite Z.eqb_refl. f_equal. injection E as E. transitivity (map (row (combine ls x)) ls); [|exact (IH x N2 E)].
  apply map_ext_in. intros u U. destruct (Z.eqb_spec u t) as [->|_]; [contradiction|reflexivity].
Qed.
Lemma map_pair : forall ls (g : Z -> F), map (fun t => (t, g t)) ls = combine ls (map g ls).
Proof. induction ls as [|t ls IH]; intros g; cbn; [reflexivity|]. f_equal. apply IH. Qed.
Lemma map_map2 : forall (f : F -> F -> F) (g k : Z -> F) ls, map (fun t => f (g t) (k t)) ls = map2 f (map g ls) (map k ls).
Proof. induction ls as [|t ls IH]; cbn; [reflexivity|]. f_equal. exact IH. Qed.

(** ** one shared index *)
Section Same.
Variable ls : list Z.
Hypothesis up : StronglySorted Z.lt ls.
Let n := length ls.
Lemma op2_same : forall (f : F -> F -> F) x y, length x = n -> length y = n ->
  op2 f (combine ls x) (combine ls y) = combine ls (map2 f x y).
Proof.
  intros f x y X Y. unfold op2. rewrite !labels_combine by assumption. rewrite union_incl; [|exact up|intros t T; exact T].
  rewrite map_pair. f_equal. rewrite map_map2, !map_row; auto using sorted_nodup.
Qed.
Lemma each_same : forall (f : list F -> list F) x, length x = n -> each f (combine ls x) = combine ls (f x).
Proof. intros f x X. unfold each. rewrite labels_combine, values_combine by exact X. reflexivity. Qed.
Lemma eachr_same : forall (f : list F -> result (list F)) x, length x = n ->
  eachr f (combine ls x) = (r <- f x ;; Ok (combine ls r)).
Proof. intros f x X. unfold eachr. rewrite labels_combine, values_combine by exact X. reflexivity. Qed.
Lemma cmap_same : forall (f : F -> F) x, cmap f (combine ls x) = combine ls (map f x).
Proof. intros f x. unfold cmap. clear. revert x. induction ls as [|t ls' IH]; intros [|y x]; cbn; try reflexivity. f_equal. apply IH. Qed.
Lemma len_row_nth : forall x : list F, length x = n -> map (row (combine ls x)) ls = x.
Proof. intros x X. apply map_row; auto using sorted_nodup. Qed.
Lemma tr_same : forall x y z, length x = n -> length y = n -> length z = n ->
  ctrue_range (combine ls x) (combine ls y) (combine ls z) = combine ls (true_range x y z).
Proof.
  intros x y z X Y Z. unfold ctrue_range, csub. rewrite !op2_same, !cmap_same by assumption.
  assert (L1 : length (ssub x y) = n) by ln. assert (L2 : length (map fabs (ssub x z)) = n) by ln. assert (L3 : length (map fabs (ssub y z)) = n) by ln.
  fold (ssub x y) (ssub x z) (ssub y z). rewrite !labels_combine by assumption. rewrite !(union_incl ls ls) by (exact up || apply incl_refl).
  rewrite map_pair. f_equal. unfold true_range.
  set (p := ssub x y) in *. set (q := map fabs (ssub x z)) in *. set (r := map fabs (ssub y z)) in *.
  transitivity (map3 (fun u w k => nanmax [u; w; k]) (map (row (combine ls p)) ls) (map (row (combine ls q)) ls) (map (row (combine ls r)) ls));
    [|rewrite !len_row_nth by assumption; reflexivity].
  generalize (combine ls p) (combine ls q) (combine ls r). clear.
  intros a b d. induction ls as [|t ls' IH]; cbn; [reflexivity|]. f_equal. exact IH.
Qed.
Lemma reindex_same : forall x : list F, length x = n -> reindex ls (combine ls x) = combine ls x.
Proof. intros x X. unfold reindex. rewrite map_pair, len_row_nth by exact X. reflexivity. Qed.
Lemma same_index_same : forall x y : list F, length x = n -> length y = n -> same_index (combine ls x) (combine ls y) = true.
Proof. intros x y X Y. unfold same_index. rewrite !labels_combine by assumption. destruct (list_eq_dec _ _ _); congruence. Qed.
End Same.

Lemma together_columns : forall (rows : list (bar F)),
  together rows = {| c_high := combine (map b_label rows) (map b_high rows); c_low := combine (map b_label rows) (map b_low rows);
    c_close := combine (map b_label rows) (map b_close rows); c_volume := combine (map b_label rows) (map b_volume rows) |}.
Proof. intros rows. unfold together. f_equal; induction rows as [|r rows IH]; cbn; [reflexivity|f_equal; exact IH..]. Qed.

Ltac step up :=
  first
  [ rewrite (op2_same _ up) by ln
  | rewrite (tr_same _ up) by ln
  | rewrite each_same by ln
  | rewrite cmap_same
  | rewrite (reindex_same _ up) by ln
  | rewrite same_index_same by ln
  | rewrite labels_combine by ln
  | rewrite values_combine by ln
  | rewrite eachr_same by ln; cbn [bind]
  | match goal with |- context [rolling ?a ?b ?c ?d] => destruct (rolling a b c d) eqn:?; cbn [bind]; try reflexivity end
  | match goal with |- context [ewm_span ?a ?b ?c] => destruct (ewm_span a b c) eqn:?; cbn [bind]; try reflexivity end
  | progress cbv zeta | progress cbn [ak_tp ak_high ak_low kc_tp kc_high kc_low] ].
Ltac unf_apart := unfold a_uo, a_stoch, a_stoch_signal, a_stoch_run, a_awesome, a_williams, a_aroon_up, a_aroon_down, a_aroon_ind, a_aroon,
  a_mass, a_ichi_conv, a_ichi_base, a_ichi_a, a_ichi_b, a_ichimoku, a_mid, a_visual, a_cci, a_typical, a_vortex_pos, a_vortex_neg, a_vortex_diff, a_vortex,
  a_kc_m, a_kc_h, a_kc_l, a_kc_w, a_kc_p, a_kc_hi, a_kc_li, a_keltner, a_dc_h, a_dc_l, a_dc_m, a_dc_w, a_dc_p, a_donchian,
  a_adi, a_obv, a_cmf, a_clv, a_fi, a_eom, a_sma_eom, a_emv, a_vpt, a_mfi, a_vwap, cadd, csub, cmul, cdiv, cema, croll, cfill in *.

Lemma atr_same : forall ls, StronglySorted Z.lt ls -> forall x y z w fillna, length x = length ls -> length y = length ls -> length z = length ls ->
  a_atr (combine ls x) (combine ls y) (combine ls z) w fillna = (r <- average_true_range x y z w fillna ;; Ok (combine ls r)).
Proof.
  intros ls up x y z w fillna X Y Z. unfold a_atr, average_true_range, cfill. cbv zeta. rewrite combine_length, Z, Nat.min_id. repeat step up.
  assert (T : length (true_range x y (shift 1 z)) = length ls) by ln.
  rewrite combine_length, T, Nat.min_id, Nat.eqb_refl. cbn [negb].
  destruct (Z.leb_spec w 0) as [W0|W0].
  - destruct (_ <? _)%Z; [reflexivity|]. cbn [bind]. rewrite each_same; [reflexivity|].
    unfold atr_wrapped. rewrite len_fold_upd, len_upd, repeat_length. reflexivity.
  - destruct (Nat.ltb_spec (length ls) (Z.to_nat w)) as [|W]; [reflexivity|].
    rewrite firstn_all2 with (n := length ls - Z.to_nat w) by (rewrite skipn_length, T; lia).
    unfold with_index. rewrite (proj2 (Nat.eqb_eq _ _)).
    + cbn [bind]. rewrite each_same; [reflexivity|]. len_rw. cbn [length]. len_rw. lia.
    + len_rw. cbn [length]. len_rw. lia.
Qed.
Lemma zip4_same : forall (rows : list (bar F)), exists rows', 
  zip4 (map b_label rows) (map b_high rows) (map b_low rows) (map b_close rows) (map b_close rows) = rows' /\
  map b_high rows' = map b_high rows /\ map b_low rows' = map b_low rows /\ map b_close rows' = map b_close rows.
Proof.
  intros rows. eexists. split; [reflexivity|]. induction rows as [|r rows (E1 & E2 & E3)]; [repeat split|].
  cbn [map zip4 b_high b_low b_close]. rewrite E1, E2, E3. repeat split.
Qed.
Lemma psar_same : forall ls (x y z : list F) (b : bool) (s m : F), length x = length ls -> length y = length ls -> length z = length ls ->
  a_psar (combine ls x) (combine ls y) (combine ls z) b s m = psar_run x y z (if b then Some ls else None) s m.
Proof.
  intros ls x y z b s m X Y Z. unfold a_psar. rewrite !combine_length, X, Y, Z, !Nat.min_id, !values_combine, labels_combine by assumption.
  rewrite Nat.ltb_irrefl, andb_false_r, orb_false_r, orb_diag. destruct (Nat.eqb_spec (length ls) 0) as [E|E]; [|reflexivity].
  rewrite E in X. destruct x; [reflexivity|discriminate X].
Qed.

Lemma typical_same : forall ls, StronglySorted Z.lt ls -> forall x y z, length x = length ls -> length y = length ls -> length z = length ls ->
  a_typical (combine ls x) (combine ls y) (combine ls z) = combine ls (divs (sadd (sadd x y) z) (#3)).
Proof. intros ls up x y z X Y Z. unfold a_typical, cadd. repeat step up. reflexivity. Qed.
Lemma mfi_same : forall ls, StronglySorted Z.lt ls -> forall x y z u w fillna,
  length x = length ls -> length y = length ls -> length z = length ls -> length u = length ls ->
  a_mfi (combine ls x) (combine ls y) (combine ls z) (combine ls u) w fillna = (r <- money_flow_index x y z u w fillna ;; Ok (combine ls r)).
Proof.
  intros ls up x y z u w fillna X Y Z U. unfold a_mfi, cmul, cdiv, croll, cfill. rewrite (typical_same ls up) by assumption. cbv zeta.
  unfold money_flow_index. set (tp := divs (sadd (sadd x y) z) (#3)). assert (T : length tp = length ls) by (unfold tp; ln).
  clearbody tp. rewrite (op2_same _ up), values_combine by assumption. fold (smul tp u).
  assert (M : length (smul tp u) = length ls) by ln. rewrite labels_combine, values_combine, combine_length, M, T, Nat.min_id, Nat.eqb_refl by assumption.
  cbn [negb andb]. repeat step up. reflexivity.
Qed.
Lemma nvi_same : forall ls (z u : list F) fillna, length z = length ls -> length u = length ls ->
  a_nvi (combine ls z) (combine ls u) fillna = (r <- negative_volume_index z u fillna ;; Ok (combine ls r)).
Proof.
  intros ls z u fillna Z U. unfold a_nvi. rewrite !combine_length, Z, U, Nat.min_id, Nat.ltb_irrefl, andb_false_r.
  rewrite labels_combine, !values_combine, firstn_all2 by (assumption || lia). reflexivity.
Qed.
Lemma vpt_same : forall ls, StronglySorted Z.lt ls -> forall z u s d fillna, length z = length ls -> length u = length ls ->
  (r <- a_vpt (combine ls z) (combine ls u) s d fillna ;; Ok (values r)) = volume_price_trend z u fillna s d /\
  (d = false -> a_vpt (combine ls z) (combine ls u) s d fillna = (r <- volume_price_trend z u fillna s d ;; Ok (combine ls r))).
Proof.
  intros ls up z u s d fillna Lz U. unfold a_vpt, volume_price_trend, cmul, cfill, croll. cbv zeta.
  assert (P : length (pct_change z) = length ls) by (rewrite len_pct; exact Lz). rewrite each_same by exact Lz. repeat step up. fold (smul (pct_change z) u).
  set (vpt := cumsum (smul (pct_change z) u)). assert (V : length vpt = length ls) by (unfold vpt; ln). clearbody vpt.
  assert (D : forall k : list F, length k = length ls ->
    values (each (check_fillna fillna (FillInt 0)) (if d then filter (fun r : Z * F => negb (fisnan (snd r))) (combine ls k) else combine ls k))
    = check_fillna fillna (FillInt 0) (if d then obs k else k) /\
    (d = false -> each (check_fillna fillna (FillInt 0)) (if d then filter (fun r : Z * F => negb (fisnan (snd r))) (combine ls k) else combine ls k)
      = combine ls (check_fillna fillna (FillInt 0) (if d then obs k else k)))).
  { intros k K. split.
    - unfold each. rewrite values_combine.
      + f_equal. destruct d; [|apply values_combine, K]. clear - K. revert k K. unfold values, obs.
        induction ls as [|t ls IH]; intros [|y k] K; try discriminate K; [reflexivity|]. injection K as K. cbn. specialize (IH k K).
        destruct (fisnan y); cbn; [exact IH|f_equal; exact IH].
      + rewrite ln_check with (n := length (labels (if d then filter (fun r : Z * F => negb (fisnan (snd r))) (combine ls k) else combine ls k))); [reflexivity|].
        rewrite len_labels, len_values. reflexivity.
    - intros ->. rewrite each_same by exact K. reflexivity. }
  destruct s as [k|]; [destruct (k =? 0)%Z|]; cbn [bind].
  - destruct (D vpt V) as [D1 D2]. rewrite D1. split; [reflexivity|]. intros E. rewrite (D2 E). reflexivity.
  - rewrite eachr_same by exact V. destruct (rolling k (minp_of fillna k) agg_mean vpt) as [x|e] eqn:R; cbn [bind]; [|split; reflexivity].
    destruct (D x) as [D1 D2]; [ln|]. rewrite D1. split; [reflexivity|]. intros E. rewrite (D2 E). reflexivity.
  - destruct (D vpt V) as [D1 D2]. rewrite D1. split; [reflexivity|]. intros E. rewrite (D2 E). reflexivity.
Qed.

(** the series whose index is the frame's *)
Lemma same_index_rows : forall (ind : indicator F) fillna rows, StronglySorted Z.lt (map b_label rows) ->
  drops_rows ind = false -> label_dependent ind = false ->
  compute_apart ind fillna (together rows) = (x <- compute ind fillna rows ;; Ok (combine (map b_label rows) x)).
Proof.
  intros ind fillna rows up D L. rewrite together_columns.
  assert (Lh : length (map b_high rows) = length (map b_label rows)) by (rewrite !map_length; reflexivity).
  assert (Ll : length (map b_low rows) = length (map b_label rows)) by (rewrite !map_length; reflexivity).
  assert (Lc : length (map b_close rows) = length (map b_label rows)) by (rewrite !map_length; reflexivity).
  assert (Lv : length (map b_volume rows) = length (map b_label rows)) by (rewrite !map_length; reflexivity).
  destruct ind; cbn [drops_rows label_dependent] in D, L; try discriminate; cbn [compute_apart compute c_high c_low c_close c_volume].
  all: try (unfold alone; rewrite labels_combine by assumption; cbn [compute]; rewrite !map_map;
    match goal with |- context [map (fun r => b_close (mkbar _ _ _ _ _)) _] => change (fun r : Z * F => b_close (mkbar (fst r) (snd r) (snd r) (snd r) (snd r))) with (@snd Z F)
      | |- context [map (fun r => b_volume (mkbar _ _ _ _ _)) _] => change (fun r : Z * F => b_volume (mkbar (fst r) (snd r) (snd r) (snd r) (snd r))) with (@snd Z F) end;
     rewrite ?(values_combine _ _ Lc : map snd _ = _), ?(values_combine _ _ Lv : map snd _ = _); reflexivity).
  all: try match goal with |- context [a_adx] => destruct (zip4_same rows) as (rows' & Z & E1 & E2 & E3);
      unfold a_adx; rewrite !combine_length, Lh, Ll, Lc, !Nat.min_id, Nat.eqb_refl, same_index_same by assumption; cbn [andb];
      rewrite labels_combine, !values_combine, Z by assumption; cbn [compute]; rewrite E1, E2, E3; reflexivity end.
  all: try (apply atr_same; assumption).
  all: try (apply mfi_same; assumption).
  all: try (apply nvi_same; assumption).
  all: try (apply vpt_same; assumption).
  all: unf_apart; unf_apart; unf_ind; unf_run; unfold sadd, ssub, smul, sdiv, scal, divs, muls, subs; cbv zeta;
    try destruct original_version; try destruct visual; try destruct int_index;
    try rewrite psar_same by assumption; try discriminate;
    repeat step up.
  all: try reflexivity.
  all: try (cbn [bind rmap]; rewrite ?map_map; reflexivity).
  all: try (match goal with |- context [psar_run _ _ _ None _ _] => idtac end; destruct (psar_run _ _ _ _ _ _) eqn:P; [cbn [bind]|reflexivity];
    apply psar_run_ok in P; [|discriminate]; destruct P as (Q0 & Q1 & Q2 & Q3); unfold psar_labels; rewrite ?Q0, ?labels_combine by assumption;
    repeat rewrite each_same by congruence; reflexivity).
  all: try (repeat (destruct (_ && _); [reflexivity|]); cbn [bind]; repeat step up; reflexivity).
  all: try (rewrite atr_same by assumption; destruct (average_true_range _ _ _ _ _) eqn:R; [|reflexivity]; cbn [bind];
    try (apply atr_len in R; [|congruence..]; rewrite Lc in R); repeat step up; reflexivity).
  all: let go := (repeat match goal with |- context [length ?x =? _] => lazymatch x with map b_label _ => fail | _ =>
         let H := fresh in assert (H : length x = length (map b_label rows)) by (first [solve [ln] | rewrite combine_length, Nat.min_l; [reflexivity|apply Nat.eq_le_incl; symmetry; solve [ln]]]); rewrite H end
       | |- context [_ =? length ?x] => lazymatch x with map b_label _ => fail | _ =>
         let H := fresh in assert (H : length x = length (map b_label rows)) by (first [solve [ln] | rewrite combine_length, Nat.min_l; [reflexivity|apply Nat.eq_le_incl; symmetry; solve [ln]]]); rewrite H end
       end) in try (progress go; rewrite Nat.eqb_refl; cbn [negb andb]; repeat step up; cbn [bind rmap]; rewrite ?map_map; try reflexivity).
Qed.

(** the PSAR series and its labels grow together *)
Definition psar_paired (st : @psar_state F) : Prop := exists ls, ps_labels st = Some ls /\ length ls = length (ps_psar st).
Lemma psar_step_paired : forall h l s m (st : @psar_state F) i, psar_paired st -> psar_paired (@psar_step F A h l s m st i).
Proof.
  intros h l s m st i (ls & P & E). unfold psar_step.
  assert (S : forall v (p : list F), length p = length (ps_psar st) -> exists ms, fst (setitem (ps_labels st) i v p) = Some ms /\ length ms = length (snd (setitem (ps_labels st) i v p))).
  { intros v p X. rewrite P. unfold setitem. destruct (existsb _ ls); cbn [fst snd]; eexists; (split; [reflexivity|]);
      [rewrite length_map2|rewrite !app_length; cbn [length]]; lia. }
  destruct (ps_up_trend st); cbn zeta.
  - destruct (fltb _ _); [|destruct (fltb (ps_uth st) _)]; exists ls; cbn; rewrite len_upd; auto.
  - destruct (fltb _ (nth i h fnan)); [exists ls; cbn; rewrite len_upd; auto|].
    destruct (fltb (nth i l fnan) _); cbn -[setitem nth];
      (destruct (fltb _ (nth (i - 2) h fnan));
       [ match goal with |- context [setitem ?a ?b ?c ?d] => specialize (S c d (len_upd _ _ _)); destruct (setitem a b c d) end; exact S
       | exists ls; cbn; destruct (fltb _ _); rewrite ?len_upd; auto ]).
Qed.
Lemma psar_run_paired : forall h l c ls s m (st : @psar_state F), length ls = length c ->
  psar_run h l c (Some ls) s m = Ok st -> psar_paired st.
Proof.
  intros h l c ls s m st HL H. unfold psar_run in H. destruct h as [|x h]; [discriminate H|]. injection H as <-.
  generalize (seq 2 (length c - 2)). intros is. assert (P : psar_paired (psar_init (x :: h) l c (Some ls) s)).
  { exists ls. cbn. auto. }
  revert P. generalize (psar_init (x :: h) l c (Some ls) s). induction is as [|i is IH]; intros st P; cbn [fold_left]; [exact P|].
  apply IH, psar_step_paired, P.
Qed.

Lemma same_index_values : forall (ind : indicator F) fillna rows, StronglySorted Z.lt (map b_label rows) ->
  (out <- compute_apart ind fillna (together rows) ;; Ok (values out)) = compute ind fillna rows.
Proof.
  intros ind fillna rows up.
  assert (Lc : length (map b_close rows) = length (map b_label rows)) by (rewrite !map_length; reflexivity).
  assert (Lh : length (map b_high rows) = length (map b_label rows)) by (rewrite !map_length; reflexivity).
  assert (Ll : length (map b_low rows) = length (map b_label rows)) by (rewrite !map_length; reflexivity).
  assert (Lv : length (map b_volume rows) = length (map b_label rows)) by (rewrite !map_length; reflexivity).
  destruct (drops_rows ind) eqn:D.
  { destruct ind; try discriminate D. rewrite together_columns. cbn [compute_apart compute c_close c_volume]. apply vpt_same; assumption. }
  destruct (label_dependent ind) eqn:L.
  { rewrite together_columns. destruct ind; try discriminate L; cbn [label_dependent] in L; subst;
    cbn [compute_apart compute c_high c_low c_close]; rewrite psar_same by assumption; unfold psar, psar_up, psar_down, psar_up_indicator, psar_down_indicator;
    (destruct (psar_run _ _ _ _ _ _) as [st|e] eqn:P; [cbn [bind]|reflexivity]);
    pose proof (psar_run_ud _ _ _ _ _ _ _ P) as [P1 P2]; unfold cfill; rewrite ?labels_combine by assumption.
    2-5: rewrite Lc in P1, P2; rewrite ?each_same by assumption; rewrite values_combine; [reflexivity|rewrite ?len_check, ?psar_indicator_len by congruence; assumption].
    assert (Q : length (psar_labels (combine (map b_label rows) (map b_close rows)) st) = length (ps_psar st)).
    { apply psar_run_paired in P; [|congruence]. destruct P as (ls & X & Y). unfold psar_labels. rewrite X. exact Y. }
    rewrite each_same by congruence. rewrite values_combine; [reflexivity|]. rewrite len_check. congruence. }
  rewrite (same_index_rows ind fillna rows up D L). destruct (compute ind fillna rows) as [x|e] eqn:E; [|reflexivity]. cbn [bind].
  rewrite values_combine; [reflexivity|]. rewrite (compute_length ind fillna rows x); [symmetry; apply map_length| |exact E].
  destruct ind; cbn in *; try exact I; subst; exact I.
Qed.
End Apart.
