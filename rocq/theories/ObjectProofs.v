(** * ObjectProofs: histories of one indicator object (C101). *)
From Coq Require Import Lia.
From Verif Require Import Lists Api Objects SpecObjects.

Local Lemma Ok_inj : forall T (x y : T), Ok x = Ok y -> x = y.
Proof. intros T x y E. injection E. auto. Qed.

(** Case analysis on what a chain of matches looks at first. *)
Ltac split_head t :=
  lazymatch t with
  | match ?m with _ => _ end => first [ split_head m | destruct m ]
  end.

Section Proofs.
Context {F : Type} {A : Arith F}.
Implicit Types (a b : indicator F).

(** Constructing and then calling one method is what [compute] models. *)
Lemma compute_object : forall a fl (rows : list (bar F)),
  compute a fl rows = (fs <- build (object_of a) fl rows ;; show a fl fs rows).
Proof.
  intros a fl rows.
  destruct a; cbn [compute object_of build show];
  unfold rsi, tsi, ultimate_oscillator, stoch, stoch_signal, kama, roc, awesome_oscillator, williams_r,
    stochrsi, stochrsi_k, stochrsi_d, ppo, ppo_signal, ppo_hist, pvo, pvo_signal, pvo_hist,
    aroon_up, aroon_down, aroon_indicator, macd, macd_signal, macd_diff, ema_indicator, sma_indicator,
    wma, trix, mass_index, ichimoku_conversion_line, ichimoku_base_line, ichimoku_a, ichimoku_b,
    kst, kst_sig, kst_diff, dpo, cci, adx, adx_pos, adx_neg, vortex_indicator_pos, vortex_indicator_neg,
    vortex_indicator_diff, psar, psar_up, psar_down, psar_up_indicator, psar_down_indicator, stc,
    average_true_range, bollinger_mavg, bollinger_hband, bollinger_lband, bollinger_wband, bollinger_pband,
    bollinger_hband_indicator, bollinger_lband_indicator, keltner_channel_mband, keltner_channel_hband,
    keltner_channel_lband, keltner_channel_wband, keltner_channel_pband, keltner_channel_hband_indicator,
    keltner_channel_lband_indicator, donchian_channel_hband, donchian_channel_lband, donchian_channel_mband,
    donchian_channel_wband, donchian_channel_pband, ulcer_index, acc_dist_index, on_balance_volume,
    chaikin_money_flow, force_index, ease_of_movement, sma_ease_of_movement, volume_price_trend,
    negative_volume_index, money_flow_index, volume_weighted_average_price, daily_return, daily_log_return,
    cumulative_return, rmap, bind; cbv zeta;
  repeat (cbn [field nth]; cbv beta iota; first [ reflexivity | match goal with
    | |- ?l = ?r => first [ split_head l | split_head r ]
    end ]).
Qed.

(** The stored series a method looks at. *)
Definition reads a : list nat :=
  match a with
  | Ema _ | Sma _ | IchiB _ _ _ _ => []
  | StochRsiK _ _ _ | StochRsiD _ _ _ | PpoSignal _ _ _ | PvoSignal _ _ _ | AroonDown _
  | MacdSignal _ _ _ | IchiBase _ _ _ _ | KstSig _ _ _ _ _ _ _ _ _ | VortexNeg _ | PsarUp _ _ _
  | PsarUpInd _ _ _ | BbH _ _ | BbHI _ _ | KcH _ _ _ _ | KcHI _ _ _ _ | DcL _ _ => [1%nat]
  | PpoHist _ _ _ | PvoHist _ _ _ | MacdDiff _ _ _ | PsarDown _ _ _
  | BbL _ _ | BbLI _ _ | KcL _ _ _ _ | KcLI _ _ _ _ => [2%nat]
  | AroonInd _ | IchiA _ _ _ _ | KstDiff _ _ _ _ _ _ _ _ _ | VortexDiff _
  | DcM _ _ | DcW _ _ | DcP _ _ => [0%nat; 1%nat]
  | PsarDownInd _ _ _ | BbP _ _ | KcP _ _ _ _ => [1%nat; 2%nat]
  | Adx _ | AdxPos _ | AdxNeg _ | BbW _ _ | KcW _ _ _ _ => [0%nat; 1%nat; 2%nat]
  | _ => [0%nat]
  end.

Lemma show_reads : forall a fl (fs fs' : list (list F)) (rows rows' : list (bar F)),
  length rows = length rows' -> (late fl a = true -> rows = rows') ->
  (forall f, In f (reads a) -> field f fs = field f fs') ->
  show a fl fs rows = show a fl fs' rows'.
Proof.
  intros a fl fs fs' rows rows' L C D.
  destruct a; cbn [late] in C; try (rewrite (C eq_refl)); cbn [show reads] in *; cbv zeta;
    try rewrite (D 0%nat) by (cbn; auto); try rewrite (D 1%nat) by (cbn; auto); try rewrite (D 2%nat) by (cbn; auto);
    try reflexivity.
  - destruct fl; [rewrite (C eq_refl) | ]; reflexivity.
  - rewrite !map_length, L. reflexivity.
  - rewrite !map_length, L. reflexivity.
Qed.

Lemma reads_disturb : forall a b f, object_of b = object_of a -> hands_out b = Some f -> In f (reads a) ->
  fresh b = false /\ (b = a \/ feeds b a = true).
Proof.
  intros a b f O H R. destruct b; cbn [hands_out] in H; try discriminate H;
  destruct a; cbn [object_of] in O; try discriminate O;
  try (injection O; intros; subst);
  try match type of H with (if (?o =? 0)%Z then _ else _) = _ => cbn [fresh]; destruct (o =? 0)%Z; try discriminate H end;
  injection H as <-; cbn [reads In] in R; cbn [fresh feeds negb];
  repeat match goal with H : _ \/ _ |- _ => destruct H as [H|H] end; try discriminate; try contradiction; auto.
Qed.

Lemma build_fields : forall b fl rows fs f, build (object_of b) fl rows = Ok fs -> hands_out b = Some f ->
  (f < length fs)%nat.
Proof.
  intros b fl rows fs f B H.
  destruct b; cbn [hands_out] in H; try discriminate H; cbn [object_of build] in B; unfold rmap, bind in B; cbv zeta in B;
  try match type of H with (if (?o =? 0)%Z then _ else _) = _ => destruct (o =? 0)%Z; try discriminate H end;
  injection H as <-; revert B;
  repeat first [ (intros B; discriminate B) | (intros B; apply Ok_inj in B; subst fs; cbn [length]; lia) |
    match goal with |- ?l = _ -> _ => split_head l end; cbv beta iota ].
Qed.

Lemma field_upd_same : forall (fs : list (list F)) f s, (f < length fs)%nat -> field f (upd f s fs) = s.
Proof.
  induction fs as [|x fs IH]; intros f s L; cbn [length] in L; [lia|]. destruct f; cbn [upd field nth]; [reflexivity|].
  apply IH. lia.
Qed.
Lemma field_upd_other : forall (fs : list (list F)) f g s, f <> g -> field g (upd f s fs) = field g fs.
Proof.
  induction fs as [|x fs IH]; intros f g s N; [destruct f; reflexivity|].
  destruct f, g; cbn [upd field nth]; try reflexivity; [congruence|]. apply IH. congruence.
Qed.
Lemma upd_length : forall B (l : list B) i x, length (upd i x l) = length l.
Proof. induction l; intros [|i] x; cbn; auto. Qed.
Lemma nth_error_upd : forall B (l : list B) i x k, nth_error (upd i x l) k =
  if Nat.eqb i k then option_map (fun _ => x) (nth_error l k) else nth_error l k.
Proof.
  induction l as [|y l IH]; intros [|i] x [|k]; cbn [upd nth_error option_map Nat.eqb]; auto.
  all: try (destruct (Nat.eqb _ _); reflexivity).
Qed.

Lemma after_snoc : forall fl w ops (o : op F), after fl w (ops ++ [o]) = step fl (after fl w ops) o.
Proof. intros. unfold after. rewrite fold_left_app. reflexivity. Qed.
Lemma after_app : forall fl w ops ops' , after fl w (ops ++ ops') = @after F A fl (after fl w ops) ops'.
Proof. intros. unfold after. apply fold_left_app. Qed.
Lemma asks_app : forall p q : list (op F), asks (p ++ q) = asks p ++ asks q.
Proof. induction p as [|[] p IH]; intros q; cbn [app asks]; rewrite ?IH; reflexivity. Qed.
Lemma asks_prefix : forall (p q : list (op F)) k b, nth_error (asks p) k = Some b -> nth_error (asks (p ++ q)) k = Some b.
Proof.
  intros p q k b H. rewrite asks_app, nth_error_app1; [exact H|]. apply nth_error_Some. congruence.
Qed.

(** What the caller holds, read off the history. *)
Lemma held_history : forall fl (w : world F) ops, w_held w = [] ->
  length (w_held (after fl w ops)) = length (asks ops) /\
  forall k f, nth_error (w_held (after fl w ops)) k = Some (Inside f) ->
    exists b, nth_error (asks ops) k = Some b /\ fl = false /\ hands_out b = Some f.
Proof.
  intros fl w ops W. induction ops as [|o ops IH] using rev_ind.
  - cbn [after fold_left asks]. rewrite W. split; [reflexivity|]. intros [|k] f E; discriminate E.
  - rewrite after_snoc, asks_app. destruct IH as [L IH]. destruct o as [b|k0 i x|i r]; cbn [step asks].
    + cbn [w_held]. rewrite !app_length, L. split; [reflexivity|]. intros k f E.
      destruct (Nat.lt_ge_cases k (length (asks ops))) as [H|H].
      * rewrite nth_error_app1 in E by lia. rewrite nth_error_app1 by lia. auto.
      * rewrite nth_error_app2 in E by lia. rewrite nth_error_app2 by lia. rewrite L in E.
        destruct (k - length (asks ops))%nat as [|[|n]]; [|discriminate E..].
        cbn [nth_error] in *. unfold given in E. exists b. split; [reflexivity|].
        destruct (reply _ _ _); [|discriminate E]. destruct fl; [discriminate E|].
        destruct (hands_out b); [|discriminate E]. injection E as ->. auto.
    + rewrite app_nil_r. destruct (nth_error (w_held (after fl w ops)) k0) as [[f0|s]|] eqn:E0; cbn [w_held]; auto.
      rewrite upd_length. split; [exact L|]. intros k f E. rewrite nth_error_upd in E.
      destruct (Nat.eqb k0 k); [|auto]. destruct (nth_error _ k); discriminate E.
    + rewrite app_nil_r. cbn [w_held]. auto.
Qed.

Lemma create_ok : forall obj fl rows (w : world F), create obj fl rows = Ok w ->
  build (object_of obj) fl rows = Ok (w_fields w) /\ w_rows w = rows /\ w_held w = [].
Proof.
  intros obj fl rows w. unfold create, bind. destruct (build _ _ _); [|discriminate].
  intros E. apply Ok_inj in E. subst w. auto.
Qed.

Lemma rows_length : forall fl (w : world F) ops, length (w_rows (after fl w ops)) = length (w_rows w).
Proof.
  intros fl w ops. induction ops as [|o ops IH] using rev_ind; [reflexivity|]. rewrite after_snoc.
  destruct o as [b|k i x|i r]; cbn [step]; [exact IH| |cbn [w_rows]; rewrite upd_length; exact IH].
  destruct (nth_error _ _) as [[]|]; exact IH.
Qed.
Lemma rows_kept : forall fl (w : world F) ops, columns_kept ops -> w_rows (after fl w ops) = w_rows w.
Proof.
  intros fl w ops. induction ops as [|o ops IH] using rev_ind; [reflexivity|]. intros K. rewrite after_snoc.
  assert (K' : columns_kept ops) by (intros i r I; apply (K i r), in_or_app; auto).
  destruct o as [b|k i x|i r]; cbn [step]; [exact (IH K')| |].
  - destruct (nth_error _ _) as [[]|]; exact (IH K').
  - exfalso. apply (K i r), in_or_app. right. left. reflexivity.
Qed.

Lemma fields_kept : forall obj fl (w : world F) ops a, w_held w = [] -> on_object obj ops ->
  object_of a = object_of obj -> undisturbed fl ops a ->
  forall f, In f (reads a) -> field f (w_fields (after fl w ops)) = field f (w_fields w).
Proof.
  intros obj fl w ops a W O S U f R. revert O U. induction ops as [|o ops IH] using rev_ind; [reflexivity|].
  intros O U. assert (O' : on_object obj ops).
  { unfold on_object in *. rewrite asks_app in O. apply Forall_app in O. apply O. }
  assert (U' : undisturbed fl ops a).
  { intros k i x b I N. apply (U k i x b); [apply in_or_app; auto | apply asks_prefix; exact N]. }
  specialize (IH O' U'). rewrite after_snoc. destruct o as [b|k i x|i r]; cbn [step]; [exact IH| |exact IH].
  destruct (nth_error (w_held (after fl w ops)) k) as [[g|s]|] eqn:E; cbn [w_fields]; auto.
  destruct (proj2 (held_history fl w ops W) k g E) as (b & N & Fl & H).
  rewrite field_upd_other; [exact IH|]. intros ->.
  apply (U k i x b); [apply in_or_app; right; left; reflexivity | apply asks_prefix; exact N |].
  split; [exact Fl|]. apply (reads_disturb a b f); [|exact H|exact R].
  transitivity (object_of obj); [|symmetry; exact S].
  unfold on_object in O'. rewrite Forall_forall in O'. apply O'. eapply nth_error_In. exact N.
Qed.

Theorem replies_kept : forall obj fl rows (w : world F) ops a,
  create obj fl rows = Ok w -> on_object obj ops -> object_of a = object_of obj ->
  undisturbed fl ops a -> (late fl a = false \/ columns_kept ops) ->
  reply fl (after fl w ops) a = compute a fl rows.
Proof.
  intros obj fl rows w ops a C O S U K. destruct (create_ok _ _ _ _ C) as (B & Rw & W).
  rewrite compute_object, S, B. cbn [bind]. unfold reply. apply show_reads.
  - rewrite rows_length, Rw. reflexivity.
  - intros L. destruct K as [K|K]; [congruence|]. rewrite (rows_kept _ _ _ K), Rw. reflexivity.
  - intros f R. apply (fields_kept obj fl w ops a W O S U f R).
Qed.

Theorem constructor_raises : forall obj fl rows e, @create F A obj fl rows = Raise e ->
  forall a, object_of a = object_of obj -> compute a fl rows = Raise e.
Proof.
  intros obj fl rows e C a S. rewrite compute_object, S. unfold create, bind in *.
  destruct (build _ _ _); [discriminate C|congruence].
Qed.

Theorem late_replies : forall obj fl rows (w : world F) ops a,
  create obj fl rows = Ok w -> object_of a = object_of obj -> only_columns a = true ->
  reply fl (after fl w ops) a = compute a fl (w_rows (after fl w ops)).
Proof.
  intros obj fl rows w ops a C S L. destruct (create_ok _ _ _ _ C) as (B & Rw & W).
  rewrite compute_object. unfold reply.
  assert (exists fs, build (object_of a) fl (w_rows (after fl w ops)) = Ok fs) as [fs ->].
  { rewrite <- S in B. destruct a; try discriminate L; cbn [object_of build] in *; [eauto..|].
    unfold ichimoku_run, bind in *. unfold rolling in *.
    repeat match type of B with context [if ?c then _ else _] => destruct c; cbv beta iota zeta in B |- *; try discriminate B end;
    cbv beta iota zeta; eauto. }
  cbn [bind]. apply show_reads; auto. intros f R. destruct a; try discriminate L; destruct R.
Qed.

Theorem live_reply : forall a rows (w : world F) i x out,
  create a false rows = Ok w -> fresh a = false -> compute a false rows = Ok out ->
  reply false (after false w [Ask a; Write 0 i x]) a = Ok (upd i x out).
Proof.
  intros a rows w i x out C Fr E. destruct (create_ok _ _ _ _ C) as (B & Rw & W).
  rewrite compute_object, B in E. cbn [bind] in E.
  assert (exists f, hands_out a = Some f /\ forall fs rows', show a false fs rows' = Ok (field f fs)) as (f & H & Sh).
  { destruct a; cbn [fresh] in Fr; try discriminate Fr; cbn [hands_out];
      try match type of Fr with negb (?o =? 0)%Z = _ => destruct (o =? 0)%Z eqn:Eo; try discriminate Fr end;
      eexists; (split; [reflexivity|]); intros fs rows'; cbn [show]; unfold donchian_offset; rewrite ?Eo; reflexivity. }
  pose proof (build_fields _ _ _ _ _ B H) as Lf.
  unfold after. cbn [fold_left step]. unfold given, reply. rewrite Rw, E, H. rewrite W. cbn [app w_held nth_error w_fields w_rows].
  rewrite Sh, field_upd_same by exact Lf. rewrite Sh in E. apply Ok_inj in E. subst out. reflexivity.
Qed.

Theorem returned_stay : forall fl (w : world F) ops ops' k s, w_held w = [] ->
  seen (after fl w ops) k = Some s -> no_writes ops' \/ (fl = true /\ not_written k ops') ->
  seen (after fl w (ops ++ ops')) k = Some s.
Proof.
  intros fl w ops ops' k s W E N. induction ops' as [|o ops' IH] using rev_ind; [rewrite app_nil_r; exact E|].
  assert (N' : no_writes ops' \/ (fl = true /\ not_written k ops')).
  { destruct N as [N|[Fl N]]; [left; intros j i x I; apply (N j i x) | right; split; [exact Fl|]; intros i x I; apply (N i x)];
    apply in_or_app; auto. }
  specialize (IH N'). rewrite app_assoc, after_snoc. pose proof (held_history fl w (ops ++ ops') W) as (_ & Hh).
  set (v := after fl w (ops ++ ops')) in *. destruct o as [b|j i x|i r].
  - revert IH. unfold seen. cbn [step w_held w_fields]. destruct (nth_error (w_held v) k) as [q|] eqn:Q; [|discriminate].
    rewrite nth_error_app1 by (apply nth_error_Some; congruence). rewrite Q. auto.
  - assert (I : In (Write j i x) (ops' ++ [Write j i x])) by (apply in_or_app; right; left; reflexivity).
    destruct N as [N|[Fl N]]; [exfalso; exact (N j i x I)|].
    assert (J : j <> k) by (intros ->; exact (N i x I)).
    unfold seen in *. cbn [step]. destruct (nth_error (w_held v) j) as [[f|t]|] eqn:Q; [|cbn [w_held w_fields]|exact IH].
    + destruct (Hh j f Q) as (b & _ & Fl' & _). congruence.
    + rewrite nth_error_upd. destruct (Nat.eqb_spec j k); [contradiction|exact IH].
  - exact IH.
Qed.
End Proofs.
