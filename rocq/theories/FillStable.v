(** * FillStable: fillna=True keeps the finite rows (C08). *)
From Verif Require Import Lists Api SpecCausal Align Rows SpecFill Fill.

Section FillStable.
Context {F : Type} {A : Arith F} {L : ArithLaws F}.

Lemma le_width : forall h l h' l' : list F, le h h' -> le l l' ->
  le (map2 (fun h l => if negb (h =.? l)%F then (h -. l)%F else fnan) h l)
     (map2 (fun h l => if negb (h =.? l)%F then (h -. l)%F else fnan) h' l').
Proof.
  intros. apply le_map2; auto; intros.
  - rewrite eqb_nan_l by apply isnan_nan. cbn. apply sub_nan_l'.
  - destruct (negb _); auto. apply sub_nan_r'.
Qed.

Ltac le_tac :=
  match goal with
  | |- le ?x ?x => apply le_refl
  | |- le (sadd _ _) (sadd _ _) => apply le_sadd; le_tac
  | |- le (ssub _ _) (ssub _ _) => apply le_ssub; le_tac
  | |- le (smul _ _) (smul _ _) => apply le_smul; le_tac
  | |- le (sdiv _ _) (sdiv _ _) => apply le_sdiv; le_tac
  | |- le (scal _ _) (scal _ _) => apply le_scal; le_tac
  | |- le (divs _ _) (divs _ _) => apply le_divs; le_tac
  | |- le (muls _ _) (muls _ _) => apply le_muls; le_tac
  | |- le (subs _ _) (subs _ _) => apply le_subs; le_tac
  | |- le (map fabs _) (map fabs _) => apply le_fabs; le_tac
  | E : rolling ?w ?w ?agg ?s = Ok ?r, E' : rolling ?w ?m ?agg ?s = Ok ?r' |- le ?r ?r' =>
      apply (le_rolling_same w m agg s r r');
      [first [apply std_sum|apply std_mean|apply std_std|apply std_max|apply std_min|apply std_apply]|exact E|exact E']
  | E : rolling ?w ?w ?agg ?s = Ok ?r, E' : rolling ?w ?m ?agg ?t = Ok ?r' |- le ?r ?r' =>
      apply (le_rolling_full w m agg s t r r');
      [first [right; exact I|left; assumption]
      |first [apply std_sum|apply std_mean|apply std_std|apply std_max|apply std_min|apply std_apply]
      |le_tac|exact E|exact E']
  | E : ewm_span ?w ?m ?s = Ok ?r, E' : ewm_span ?w ?m' ?s = Ok ?r' |- le ?r ?r' =>
      apply (le_ewm_span w m m' s r r'); [unfold ewm_span in E; destruct (Z.ltb_spec w 1); [discriminate|lia]|exact E|exact E']
  | |- le (map2 (fun h l => if negb _ then _ else _) _ _) _ => apply le_width; le_tac
  | |- le (map _ _) (map _ _) =>
      apply le_map; [now rewrite ?add_nan_r', ?div_nan_r', ?sub_nan_r'|le_tac]
  | |- _ => progress cbn [bb_mavg bb_hband bb_lband kc_tp kc_high kc_low]; le_tac
  | _ => idtac
  end.

Lemma rsi_le : forall (c : list F) w r r', rsi_run c w false = Ok r -> rsi_run c w true = Ok r' -> le r r'.
Proof.
  unfold rsi_run. cbn [minp_of]. intros c w r r' H H'. inv_ok.
  assert (Hw : (0 < w)%Z).
  { unfold ewm_inv_alpha in E. destruct (Z.eqb_spec w 0); [discriminate|].
    destruct (Z.ltb_spec w 0); [discriminate|lia]. }
  pose proof (le_ewm_inv w w 0 _ _ _ ltac:(lia) E1 E) as Hu.
  pose proof (le_ewm_inv w w 0 _ _ _ ltac:(lia) E2 E0) as Hd.
  revert Hu Hd. generalize r0 r1 r2 r3. clear -L. intros u' d' u d Hu Hd.
  revert d d' Hd. induction Hu as [|x x' u u' Hx Hu IH]; intros d d' Hd; destruct Hd as [|y y' d d' Hy Hd];
    cbn [sdiv map2]; constructor; [|apply IH; auto].
  assert (NN : (fofZ 100 -. fofZ 100 /. (fofZ 1 +. fnan))%F = (fnan : F))
    by (now rewrite add_nan_r', div_nan_r', sub_nan_r').
  destruct Hy as [->| ->].
  - left. rewrite eqb_nan_l by apply isnan_nan. rewrite div_nan_r'. apply NN.
  - destruct (y' =.? #0)%F; [right; reflexivity|]. destruct Hx as [->| ->]; [left|right; reflexivity].
    rewrite div_nan_l'. apply NN.
Qed.

Lemma rsi_stable : forall (c : list F) w r r', rsi c w false = Ok r -> rsi c w true = Ok r' ->
  length r = length r' /\ stable r r'.
Proof.
  unfold rsi. intros c w r r' H H'.
  destruct (rsi_run c w false) as [x|] eqn:E; [|discriminate].
  destruct (rsi_run c w true) as [x'|] eqn:E'; [|discriminate]. cbn [rmap] in *.
  pose proof (rsi_le c w x x' E E') as Hle.
  set (f := check_fillna true (FillInt 50)) in *. injection H as <-. injection H' as <-. subst f.
  split.
  - cbn [check_fillna]. rewrite (le_len _ _ Hle). symmetry. exact (len_check true 50 x').
  - apply (stable_check 50); [lia|auto].
Qed.

Lemma stochrsi_le : forall (c : list F) w k s s' q q',
  stochrsi_run c w k false = Ok (s, q) -> stochrsi_run c w k true = Ok (s', q') -> le s s' /\ (Windowed F -> le q q').
Proof.
  unfold stochrsi_run. intros c w k s s' q q' H H'. inv_ok.
  destruct (rsi_stable c w r2 r E3 E) as [Lr Sr].
  assert (G : le (sdiv (ssub r2 r3) (ssub r4 r3)) (sdiv (ssub r r0) (ssub r1 r0))).
  { apply le_sdiv.
    - exact (le_sub_window w w _ _ _ _ Lr Sr E4 E0).
    - apply le_ssub; [|exact (le_rolling_stable w w agg_min _ _ _ _ (or_intror I) std_min Lr Sr E4 E0)].
      exact (le_rolling_stable w w agg_max _ _ _ _ (or_intror I) std_max Lr Sr E5 E1). }
  split; auto. intros W. exact (le_rolling_full k k _ _ _ _ _ (or_introl W) std_mean G E6 E2).
Qed.

Lemma kst_rocma_le : forall (c : list F) a b r r', kst_rocma c a b false = Ok r ->
  kst_rocma c a b true = Ok r' -> le r r'.
Proof. unfold kst_rocma. cbn [minp_of]. intros. le_tac. Qed.

(** row-wise form of [stable] *)
Definition keep (x y : F) : Prop := ffinite x = true -> y = x.
Lemma stable_keep : forall l m, length l = length m -> (stable l m <-> Forall2 keep l m).
Proof.
  induction l as [|x l IH]; destruct m as [|y m]; try discriminate; intros HL.
  - split; [constructor|]. intros _ i Hi. cbn in Hi. lia.
  - injection HL as HL. specialize (IH m HL). split; intros H.
    + constructor.
      * intros Hx. exact (H 0 ltac:(cbn; lia) Hx).
      * apply IH. intros i Hi. exact (H (S i) ltac:(cbn; lia)).
    + inversion H; subst. intros [|i] Hi Hf; [now apply H3|].
      cbn in Hi. apply (proj2 IH); auto. lia.
Qed.
Lemma keep_shift : forall n l m, Forall2 keep l m -> Forall2 keep (shift n l) (shift n m).
Proof.
  intros n l m H. assert (HL : length l = length m) by (induction H; cbn; auto).
  assert (R : forall k, Forall2 keep (repeat fnan k) (repeat fnan k))
    by (induction k; constructor; auto; intros _; reflexivity).
  assert (Fi : forall k l m, Forall2 keep l m -> Forall2 keep (firstn k l) (firstn k m))
    by (induction k; cbn; [constructor|intros ? ? []; constructor; auto]).
  assert (Sk : forall k l m, Forall2 keep l m -> Forall2 keep (skipn k l) (skipn k m))
    by (induction k; cbn; auto; intros ? ? []; auto).
  unfold shift, shift_fill. rewrite HL. destruct (0 <=? n)%Z; apply Forall2_app; auto.
Qed.
Lemma stable_offset : forall n l m, length l = length m -> stable l m ->
  stable (donchian_offset n l) (donchian_offset n m).
Proof.
  intros n l m HL H. unfold donchian_offset. destruct (negb _); auto.
  apply stable_keep; [unfold shift; rewrite !len_shift_fill; auto|].
  apply keep_shift, stable_keep; auto.
Qed.
Lemma stable_offset_check : forall n z l m, (-1000 <= z <= 1000)%Z -> le l m ->
  stable (donchian_offset n l) (donchian_offset n (check_fillna true (FillInt z) m)).
Proof.
  intros. apply stable_offset; [|now apply stable_check].
  rewrite (len_check true z m). now apply le_len.
Qed.

Lemma stable_fill_const : forall z (l m : list F), (-1000 <= z <= 1000)%Z -> (z =? -1)%Z = false ->
  le l m -> stable l (fillna_const (fofZ z) (ffill (replace_inf m))).
Proof.
  intros z l m Hz Hn H. pose proof (stable_check z l m Hz H) as G.
  unfold check_fillna in G. now rewrite Hn in G.
Qed.
Lemma stable_fill_back : forall (l m : list F),
  le l m -> stable l (bfill (ffill (replace_inf m))).
Proof. intros l m H. exact (stable_check (-1) l m ltac:(lia) H). Qed.

Ltac fin := first [apply stable_fill_back | apply stable_fill_const; [lia|reflexivity|] | apply stable_le].
Ltac sameok := repeat match goal with
  | E : ?m = Ok ?a, E' : ?m = Ok ?b |- _ => rewrite E in E'; injection E' as <-
  end.

Ltac dc_tac z :=
  unf_ind; unf_run; inv_ok; cbn [donchian_minp] in *;
  refine (stable_offset_check _ z _ _ ltac:(lia) _); le_tac.

Lemma fill_stable_ok : forall (ind : indicator F) rows out out', fill_stable ind = true \/ Windowed F /\ fill_stable_exact ind = true ->
  compute ind false rows = Ok out -> compute ind true rows = Ok out' -> stable out out'.
Proof.
  intros ind rows out out' Hs H H'.
  destruct (flag_free ind) eqn:Hf.
  { destruct (flag_free_ok ind rows out Hf H) as (v & E & Hv). rewrite H' in E.
    assert (Hr : (-1000 <= v <= 1000)%Z).
    { destruct (fill_value ind) eqn:Ev; subst v; [apply (fill_value_range ind), Ev|lia]. }
    injection E as ->. apply (stable_check v out out); auto using le_refl. }
  destruct Hs as [Hs|[W Hs]].
  2: { destruct ind; try discriminate Hs; cbn [compute] in H, H'.
    - unf_ind; unf_run; cbn [minp_of] in *; inv_ok; fin. le_tac.
    - unfold stochrsi_k in *. inv_ok. fin. exact (proj2 (stochrsi_le _ _ _ _ _ _ _ E0 E) W).
    - unfold stochrsi_d in *. inv_ok. fin. destruct (stochrsi_le _ _ _ _ _ _ _ E0 E) as [_ G].
      eapply le_rolling_full; [now left|apply std_mean|exact (G W)|eassumption|eassumption]. }
  destruct ind; try discriminate Hs; try discriminate Hf; cbn [compute] in H, H'.
  { unfold rsi in *. inv_ok. fin. eapply rsi_le; eauto. }
  all: try solve [unf_ind; unf_run; cbn [minp_of] in *; inv_ok; sameok; fin; le_tac].
  - unfold stochrsi in *. inv_ok. fin. exact (proj1 (stochrsi_le _ _ _ _ _ _ _ E0 E)).
  - destruct visual; [discriminate|]. unf_ind; unf_run; cbn [minp_of] in *; inv_ok; fin. le_tac.
  - destruct original_version; [|discriminate]. unf_ind; unf_run; cbn [minp_of] in *; inv_ok; sameok; fin; le_tac.
  - destruct original_version; [|discriminate]. unf_ind; unf_run; cbn [minp_of] in *; inv_ok; sameok; fin; le_tac.
  - destruct original_version; [|discriminate]. unf_ind; unf_run; cbn [minp_of] in *; inv_ok; sameok; fin; le_tac.
  - destruct original_version; [|discriminate]. unf_ind; unf_run; cbn [minp_of] in *; inv_ok; sameok; fin; le_tac.
  - destruct original_version; [|discriminate]. unf_ind; unf_run; cbn [minp_of] in *; inv_ok; sameok; fin; le_tac.
  - destruct original_version; [|discriminate]. unf_ind; unf_run; cbn [minp_of] in *; inv_ok; sameok; fin; le_tac.
  - dc_tac (-1)%Z.
  - dc_tac (-1)%Z.
  - dc_tac (-1)%Z.
  - dc_tac 0%Z.
  - dc_tac 0%Z.
  - destruct dropnans; [discriminate|]. unf_ind; unf_run; cbn [minp_of] in *; inv_ok; fin.
    destruct smoothing_factor as [k|]; [|discriminate]. cbn [flag_free] in Hf. rewrite Hf in *. le_tac.
Qed.
End FillStable.
