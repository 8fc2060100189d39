(** * CausalBack: no look-ahead for the backward-filled series (C02, C03). *)
From Verif Require Import Lists Api Align SpecCausal Causal CausalPsar Rows.

Section Back.
Context {F : Type} {A : Arith F}.

Lemma bfill_full : forall s : list F, Forall (fun x => fisnan x = false) s -> bfill s = s.
Proof. induction 1; cbn; auto. now rewrite H, IHForall. Qed.

Lemma ffill_go_full : forall (s : list F) a, fisnan a = false ->
  Forall (fun x => fisnan x = false) (ffill_go a s).
Proof. induction s; cbn; intros; constructor; auto; destruct (fisnan a) eqn:E; auto. Qed.

Lemma bfill_nan : forall s : list F, Forall (fun x => fisnan x = true) s ->
  Forall (fun x => fisnan x = true) (bfill s) \/ fisnan (fnan : F) = false.
Proof.
  destruct (fisnan (fnan : F)) eqn:N; auto. left. induction H; cbn; constructor; auto.
  rewrite H. destruct IHForall; cbn; auto.
Qed.

(** once a value is known, appending rows does not change the filled ones *)
Lemma bfill_ffill_prefix : forall (s : list F) k i, fisnan (fnan : F) = true ->
  i < length (bfill (ffill (firstn k s))) ->
  fisnan (nth i (bfill (ffill (firstn k s))) fnan) = false ->
  firstn k (bfill (ffill s)) = bfill (ffill (firstn k s)).
Proof.
  intros s k i N. unfold ffill. revert k i. induction s as [|x s IH]; intros [|k] i; cbn [firstn];
    try (intros; reflexivity).
  - cbn [ffill_go bfill]. destruct (fisnan x) eqn:E.
    + rewrite N. intros Hi Hv.
      assert (G : firstn k (bfill (ffill_go fnan s)) = bfill (ffill_go fnan (firstn k s)) /\
                  bfill (ffill_go fnan (firstn k s)) <> []).
      { destruct i; cbn [nth length] in *.
        - destruct (bfill (ffill_go fnan (firstn k s))) as [|y l] eqn:Eb; [cbn in Hv; congruence|].
          cbn [hd] in Hv. split; [|discriminate]. rewrite <- Eb. apply (IH k 0); rewrite Eb; cbn; auto; lia.
        - split; [apply (IH k i); auto; lia|]. intros En. rewrite En in Hi. cbn in Hi. lia. }
      destruct G as [G1 G2]. f_equal; auto.
      rewrite <- G1 in *. destruct k; [now cbn in G2|].
      destruct (bfill (ffill_go fnan s)); [now cbn in G2|reflexivity].
    + intros _ _. rewrite E. f_equal.
      rewrite !bfill_full by (apply ffill_go_full; auto).
      revert x E k. clear. induction s; intros; [now rewrite !firstn_nil|]. destruct k; auto. cbn. f_equal.
      destruct (fisnan a) eqn:Ea; apply IHs; auto.
Qed.

Definition cfb (o : Z) (s : list F) : list F := donchian_offset o (check_fillna true (FillInt (-1)) s).

Lemma cfb_prefix : forall o (s : list F) k i, (0 <= o)%Z -> fisnan (fnan : F) = true ->
  i < length (cfb o (firstn k s)) -> fisnan (nth i (cfb o (firstn k s)) fnan) = false ->
  firstn k (cfb o s) = cfb o (firstn k s).
Proof.
  intros o s k i Ho N. unfold cfb, check_fillna. cbn [Z.eqb Pos.eqb]. cbn iota.
  unfold replace_inf. rewrite pf_map. set (t := map _ s). intros Hi Hv.
  rewrite <- pf_donchian_offset by auto. f_equal.
  unfold donchian_offset in *. destruct (Z.eqb_spec o 0); cbn [negb] in *.
  - apply bfill_ffill_prefix with i; auto.
  - unfold shift in *. rewrite len_shift_fill in Hi. destruct (Nat.lt_ge_cases i (Z.to_nat o)).
    + rewrite nth_shift_fill_lt in Hv by auto. congruence.
    + rewrite nth_shift_fill_ge in Hv by auto.
      apply bfill_ffill_prefix with (i - Z.to_nat o); auto; lia.
Qed.

Definition back_shape (k : nat) (out out' : list F) : Prop :=
  exists o X, (0 <= o)%Z /\ out = cfb o (firstn k X) /\ out' = cfb o X.

Lemma shape0 : forall k X out out', bfill (ffill (replace_inf (firstn k X))) = out ->
  bfill (ffill (replace_inf X)) = out' -> back_shape k out out'.
Proof. intros. exists 0%Z, X. unfold cfb, donchian_offset. cbn [Z.eqb negb]. repeat split; auto; lia. Qed.
Lemma shapeo : forall k o X out out', (0 <= o)%Z ->
  donchian_offset o (bfill (ffill (replace_inf (firstn k X)))) = out ->
  donchian_offset o (bfill (ffill (replace_inf X))) = out' -> back_shape k out out'.
Proof. intros. exists o, X. auto. Qed.

Ltac bk := repeat first
  [ progress cbn [bind rmap bb_mavg bb_hband bb_lband kc_tp kc_high kc_low]
  | pf_step
  | match goal with
    | |- context [rmap _ (rolling ?w ?m ?a ?s)] => destruct (rolling w m a s); cbn [bind rmap]; [|discriminate]
    | |- context [rmap _ (ewm_span ?w ?m ?s)] => destruct (ewm_span w m s); cbn [bind rmap]; [|discriminate]
    end ].

Lemma uniform_shape : forall ind k rows out out', uniform ind = true -> window_based ind = true ->
  fills_backward ind = true ->
  compute ind true (firstn k rows) = Ok out -> compute ind true rows = Ok out' -> back_shape k out out'.
Proof.
  intros ind k rows out out' Hu Hw Hf.
  destruct ind; try discriminate Hf; cbn [uniform window_based recursive_based orb] in Hu, Hw;
    try discriminate Hw; try discriminate Hu;
    try apply Z.leb_le in Hw;
    try (destruct visual; try discriminate Hw);
    try (destruct original_version; try discriminate Hu);
    unfold compute; rewrite !pf_map; unf_ind; unf_run; bk;
    intros H H'; injection H as H; injection H' as H';
    first [eapply shape0; eassumption | eapply shapeo; eassumption].
Qed.

Lemma window_shape : forall ind k rows out out', window_based ind = true -> k <= length rows ->
  fills_backward ind = true ->
  compute ind true (firstn k rows) = Ok out -> compute ind true rows = Ok out' -> back_shape k out out'.
Proof.
  intros ind k rows out out' Hw Hk Hf. destruct (uniform ind) eqn:Hu; [now apply uniform_shape|].
  intros H H'.
  assert (Lh := map_length b_high rows). assert (Ll := map_length b_low rows).
  assert (Lc := map_length b_close rows).
  destruct ind; cbn [window_based uniform recursive_based orb] in Hw, Hu; try discriminate;
    rewrite ?Hw in Hu; try discriminate;
    cbn [compute] in H, H'; rewrite ?pf_map in H;
    try (destruct original_version; [discriminate Hu|]).
  1-3: unfold keltner_channel_mband, keltner_channel_hband, keltner_channel_lband in *;
    destruct (keltner_run (firstn k _) _ _ _ _ _ _ _) as [st|] eqn:E; [|discriminate H];
    destruct (keltner_run (map b_high rows) _ _ _ _ _ _ _) as [st'|] eqn:E'; [|discriminate H'];
    destruct (keltner_ema_prefix _ _ _ _ _ _ _ _ _ _ (eq_trans Lh (eq_sym Lc))
       (eq_trans Ll (eq_sym Lc)) (eq_ind_r (fun n => k <= n) Hk Lc) (proj1 (Z.ltb_lt _ _) Hw) E' E) as (E1 & E2 & E3);
    cbn [bind] in *; injection H as H; injection H' as H'; rewrite ?E1, ?E2, ?E3 in H;
    eapply shape0; eassumption.
  unfold cumulative_return in *. revert H H'. clear. generalize (map b_close rows). intros c H' H.
  destruct c as [|c0 c]; [discriminate|].
  destruct k; [discriminate|]. cbn [firstn] in H'.
  change (c0 :: firstn k c) with (firstn (S k) (c0 :: c)) in H'.
  rewrite pf_divs, pf_subs, pf_muls in H'.
  set (X := muls _ _) in H'. set (X' := muls _ _) in H. change X' with X in H.
  eapply shape0 with (X := X); [injection H' as H'; exact H'|injection H as H; exact H].
Qed.

(** fillna=True: as soon as one row of the series is a number, appending rows
    changes nothing *)
Lemma window_based_back : forall ind rows more out out' i, fisnan (fnan : F) = true ->
  window_based ind = true -> fills_backward ind = true ->
  compute ind true rows = Ok out -> compute ind true (rows ++ more) = Ok out' ->
  i < length out -> fisnan (nth i out fnan) = false ->
  firstn (length rows) out' = out.
Proof.
  intros ind rows more out out' i N Hw Hf H H' Hi Hv.
  assert (Hr : firstn (length rows) (rows ++ more) = rows)
    by (rewrite firstn_app, Nat.sub_diag, firstn_all; cbn [firstn]; now rewrite app_nil_r).
  rewrite <- Hr in H.
  destruct (window_shape ind (length rows) (rows ++ more) out out') as (o & X & Ho & -> & ->); auto.
  - rewrite app_length. lia.
  - apply cfb_prefix with i; auto.
Qed.

Lemma psar_shape : forall ind k rows out out', psar_based ind = true -> fills_backward ind = true ->
  k <= length rows ->
  compute (positional ind) true (firstn k rows) = Ok out ->
  compute (positional ind) true rows = Ok out' -> back_shape k out out'.
Proof.
  intros ind k rows out out' Hp Hf Hk H H'.
  assert (Lh := map_length b_high rows). assert (Ll := map_length b_low rows).
  assert (Lc := map_length b_close rows).
  destruct ind; try discriminate Hp; try discriminate Hf;
    cbn [positional compute] in H, H'; rewrite ?pf_map in H;
    unfold psar, psar_up, psar_down in *;
    (destruct (psar_run (firstn k (map b_high rows)) _ _ None step max_step) as [st|] eqn:E; [|discriminate H]);
    (destruct (psar_run (map b_high rows) _ _ None step max_step) as [st'|] eqn:E'; [|discriminate H']);
    destruct (psar_run_prefix _ _ _ _ _ _ _ _ (eq_trans Lh (eq_sym Lc))
       (eq_trans Ll (eq_sym Lc)) (eq_ind_r (fun n => k <= n) Hk Lc) E' E) as (E1 & E2 & E3);
    cbn [bind] in *; rewrite ?E1, ?E2, ?E3 in H; injection H as H; injection H' as H';
    eapply shape0; eassumption.
Qed.

Lemma psar_based_back : forall ind rows more out out' i, fisnan (fnan : F) = true ->
  psar_based ind = true -> fills_backward ind = true ->
  label_dependent ind = false \/ default_index (rows ++ more) ->
  compute ind true rows = Ok out -> compute ind true (rows ++ more) = Ok out' ->
  i < length out -> fisnan (nth i out fnan) = false ->
  firstn (length rows) out' = out.
Proof.
  intros ind rows more out out' i N Hp Hf Hl H H' Hi Hv.
  assert (Hr : firstn (length rows) (rows ++ more) = rows)
    by (rewrite firstn_app, Nat.sub_diag, firstn_all; cbn [firstn]; now rewrite app_nil_r).
  destruct (psar_shape ind (length rows) (rows ++ more) out out') as (o & X & Ho & -> & ->); auto.
  - rewrite app_length. lia.
  - rewrite Hr. destruct Hl as [Hl|Hl].
    + rewrite <- H. destruct ind; try reflexivity; cbn in Hl; subst; reflexivity.
    + rewrite <- psar_default_index; auto. rewrite <- Hr. now apply default_index_firstn.
  - destruct Hl as [Hl|Hl].
    + rewrite <- H'. destruct ind; try reflexivity; cbn in Hl; subst; reflexivity.
    + now rewrite <- psar_default_index.
  - apply cfb_prefix with i; auto.
Qed.
End Back.
