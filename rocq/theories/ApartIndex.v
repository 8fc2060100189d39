(** * ApartIndex: the index of the result, and rows some column lacks (C102). *)
From Coq Require Import Lia Sorting.Sorted.
From Verif Require Import Lists Align Apart SpecApart ApartProofs.
Local Open Scope f_scope.

(** a set of columns *)
Record mask := { m_high : bool; m_low : bool; m_close : bool; m_volume : bool }.
Definition mor (p q : mask) : mask :=
  {| m_high := m_high p || m_high q; m_low := m_low p || m_low q; m_close := m_close p || m_close q; m_volume := m_volume p || m_volume q |}.
Definition mhas (p : mask) (x : col) : bool := match x with High => m_high p | Low => m_low p | Close => m_close p | Volume => m_volume p end.
Lemma mhas_mor : forall p q x, mhas (mor p q) x = mhas p x || mhas q x.
Proof. intros p q [| | |]; reflexivity. Qed.
Definition only (x : col) : mask :=
  match x with
  | High => Build_mask true false false false | Low => Build_mask false true false false
  | Close => Build_mask false false true false | Volume => Build_mask false false false true
  end.

Section Index.
Context {F : Type} {A : Arith F}.
Variable cols : columns F.

(** increasing labels: those of the columns in [P] *)
Definition within (P : mask) (t : Z) : Prop := exists x, mhas P x = true /\ In t (labels (pick cols x)).
Lemma within_mor : forall P Q t, within (mor P Q) t <-> within P t \/ within Q t.
Proof.
  intros P Q t. unfold within. split.
  - intros (x & H & I). rewrite mhas_mor in H. apply orb_true_iff in H as [H|H]; [left|right]; exists x; auto.
  - intros [(x & H & I)|(x & H & I)]; exists x; rewrite mhas_mor, H, ?orb_true_r; auto.
Qed.
Definition ix (P : mask) (a : column F) : Prop := ascending a /\ forall t, In t (labels a) <-> within P t.
Definition rix (P : mask) (x : result (column F)) : Prop := forall a, x = Ok a -> ix P a.
Definition rix2 (P Q : mask) (x : result (column F * column F)) : Prop := forall a, x = Ok a -> ix P (fst a) /\ ix Q (snd a).

Lemma labels_op2 : forall f (a b : column F), labels (op2 f a b) = union (labels a) (labels b).
Proof. intros f a b. unfold op2, labels at 1. rewrite map_map. apply map_id. Qed.
Lemma labels_cmap : forall f (a : column F), labels (cmap f a) = labels a.
Proof. intros f a. unfold cmap, labels. rewrite map_map. reflexivity. Qed.
Lemma labels_each : forall f (a : column F), length (f (values a)) = length (values a) -> labels (each f a) = labels a.
Proof. intros f a L. apply labels_combine. rewrite L, len_values, len_labels. reflexivity. Qed.
Lemma ix_self : forall x, ascending (pick cols x) -> ix (only x) (pick cols x).
Proof.
  intros x S. split; [exact S|]. intros t. split; [intros I; exists x; split; [destruct x; reflexivity|exact I]|].
  intros (y & H & I). destruct x, y; try discriminate H; exact I.
Qed.
Lemma ix_labels : forall P (a b : column F), labels a = labels b -> ix P b -> ix P a.
Proof. intros P a b E [S H]. split; [unfold ascending; rewrite E; exact S|rewrite E; exact H]. Qed.
Lemma ix_op2 : forall f P Q (a b : column F), ix P a -> ix Q b -> ix (mor P Q) (op2 f a b).
Proof.
  intros f P Q a b [Sa Ha] [Sb Hb]. split; [unfold ascending; rewrite labels_op2; apply union_sorted, Sa|].
  intros t. rewrite labels_op2, in_union, Ha, Hb. symmetry. apply within_mor.
Qed.
Lemma ix_cmap : forall f P (a : column F), ix P a -> ix P (cmap f a).
Proof. intros f P a. apply ix_labels, labels_cmap. Qed.
Lemma ix_each : forall f P (a : column F), (forall s, length (f s) = length s) -> ix P a -> ix P (each f a).
Proof. intros f P a L. apply ix_labels, labels_each, L. Qed.
Lemma rix_eachr : forall f P (a : column F), (forall s r, f s = Ok r -> length r = length s) -> ix P a -> rix P (eachr f a).
Proof.
  intros f P a L H r E. unfold eachr in E. destruct (f (values a)) as [x|e] eqn:X; [|discriminate E]. cbn [bind] in E. injection E as <-.
  apply (ix_labels _ _ a); [|exact H]. apply labels_combine. rewrite (L _ _ X), len_values, len_labels. reflexivity.
Qed.
Lemma ix_tr : forall P Q R (h l c : column F), ix P h -> ix Q l -> ix R c -> ix (mor P (mor Q R)) (ctrue_range h l c).
Proof.
  intros P Q R h l c [Sh H] [Sl L] [Sc C]. unfold ctrue_range, csub. cbv zeta.
  assert (E : labels (ctrue_range h l c) = union (union (union (labels h) (labels l)) (union (labels h) (labels c))) (union (labels l) (labels c))).
  { unfold ctrue_range, csub. cbv zeta. unfold labels at 1. rewrite map_map, map_id, !labels_cmap, !labels_op2. reflexivity. }
  unfold ctrue_range, csub in E. cbv zeta in E. split; [unfold ascending; rewrite E; apply union_sorted, union_sorted, union_sorted, Sh|].
  intros t. rewrite E, !in_union, H, L, C, !within_mor. tauto.
Qed.
Lemma ix_reindex : forall P (a b : column F), ix P a -> ix P (reindex (labels a) b).
Proof. intros P a b. apply ix_labels. unfold reindex, labels at 1. rewrite map_map. apply map_id. Qed.
Lemma rix_ok : forall P a, ix P a -> rix P (Ok a).
Proof. intros P a H x E. injection E as <-. exact H. Qed.
Lemma rix2_ok : forall P Q a b, ix P a -> ix Q b -> rix2 P Q (Ok (a, b)).
Proof. intros P Q a b H G x E. injection E as <-. auto. Qed.
Lemma rix_bind : forall P Q x f, rix P x -> (forall a, ix P a -> rix Q (f a)) -> rix Q (bind x f).
Proof. intros P Q x f H G r E. destruct x as [a|e]; [|discriminate E]. exact (G a (H a eq_refl) r E). Qed.
Lemma rix2_bind : forall P Q R x f, rix P x -> (forall a, ix P a -> rix2 Q R (f a)) -> rix2 Q R (bind x f).
Proof. intros P Q R x f H G r E. destruct x as [a|e]; [|discriminate E]. exact (G a (H a eq_refl) r E). Qed.
Lemma rix_bind2 : forall P Q R x f, rix2 P Q x -> (forall a b, ix P a -> ix Q b -> rix R (f (a, b))) -> rix R (bind x f).
Proof. intros P Q R x f H G r E. destruct x as [[a b]|e]; [|discriminate E]. destruct (H (a, b) eq_refl). exact (G a b H0 H1 r E). Qed.
Lemma rix_any : forall {B} P (x : result B) f, (forall a, x = Ok a -> rix P (f a)) -> rix P (bind x f).
Proof. intros B P x f G r E. destruct x as [a|e]; [|discriminate E]. exact (G a eq_refl r E). Qed.
Lemma rix_is : forall P Q x, P = Q -> rix P x -> rix Q x.
Proof. intros P Q x ->. auto. Qed.
Lemma rix_raise : forall P e, rix P (Raise e).
Proof. intros P e a E. discriminate E. Qed.
Lemma rix_roll : forall w m g P (a : column F), ix P a -> rix P (croll w m g a).
Proof. intros w m g P a. apply rix_eachr. intros s r. apply len_rolling. Qed.
Lemma rix_ema : forall w fl P (a : column F), ix P a -> rix P (cema w fl a).
Proof. intros w fl P a. apply rix_eachr. intros s r. unfold ema_. apply len_ewm_span. Qed.
Lemma ix_fill : forall fl z P (a : column F), ix P a -> ix P (cfill fl z a).
Proof. intros fl z P a. apply ix_each. intros s. apply len_check. Qed.
Lemma ix_combine : forall P (a : column F) x, length x = length a -> ix P a -> ix P (combine (labels a) x).
Proof. intros P a x L. apply ix_labels, labels_combine. rewrite L. symmetry. apply len_labels. Qed.
Lemma rix_atr : forall h l c w fl P Q R, ix P h -> ix Q l -> ix R c -> rix (mor P (mor Q R)) (a_atr h l c w fl).
Proof.
  intros h l c w fl P Q R H L C. unfold a_atr. cbv zeta.
  assert (T : ix (mor P (mor Q R)) (ctrue_range h l (each (shift 1) c))).
  { apply ix_tr; [exact H|exact L|]. apply ix_each; [intros; apply len_shift|exact C]. }
  set (tr := ctrue_range h l (each (shift 1) c)) in *. destruct (w <=? 0)%Z.
  - destruct (_ <? _)%Z; [apply rix_raise|]. destruct (Nat.eqb_spec (length tr) (length c)) as [E|E]; cbn [negb]; [|apply rix_raise].
    apply rix_ok, ix_fill, ix_combine; [|exact T]. unfold atr_wrapped. rewrite len_fold_upd, len_upd, repeat_length. symmetry. exact E.
  - destruct (_ <? _); [apply rix_raise|]. unfold with_index. match goal with |- context [length ?x =? _] => destruct (Nat.eqb_spec (length x) (length (labels tr))) as [E|E] end; [|apply rix_raise].
    cbn [bind]. apply rix_ok, ix_fill, ix_combine; [|exact T]. rewrite E. apply len_labels.
Qed.
Lemma rix_alone : forall ind fl P (a : column F), (forall rows, aligned_scope ind rows) -> ix P a -> rix P (alone ind fl a).
Proof.
  intros ind fl P a S H r E. unfold alone in E. destruct (compute _ _ _) as [x|e] eqn:C; [|discriminate E]. injection E as <-.
  apply ix_combine; [|exact H]. apply compute_length in C; [|apply S]. rewrite C. apply map_length.
Qed.
Lemma rix2_aroon : forall h l w fl P Q, ix P h -> ix Q l -> rix2 P Q (a_aroon h l w fl).
Proof.
  intros h l w fl P Q H L r E. unfold a_aroon, aroon_run in E. cbv zeta in E.
  match type of E with context [rolling ?p ?q ?g (values h)] => destruct (rolling p q g (values h)) as [u|e] eqn:U; [|discriminate E] end. cbn [bind] in E.
  match type of E with context [rolling ?p ?q ?g (values l)] => destruct (rolling p q g (values l)) as [d|e] eqn:V; [|discriminate E] end. cbn [bind] in E.
  destruct (_ && _); [discriminate E|]. destruct (_ && _); [discriminate E|]. cbn [bind] in E. injection E as <-. cbn [fst snd].
  split; apply ix_combine; try assumption; [rewrite (len_rolling _ _ _ _ _ U)|rewrite (len_rolling _ _ _ _ _ V)]; apply len_values.
Qed.
Lemma len_zip4 : forall ts (hs ls cs vs : list F) n, length ts = n -> length hs = n -> length ls = n -> length cs = n -> length vs = n -> length (zip4 ts hs ls cs vs) = n.
Proof.
  induction ts as [|t ts IH]; intros [|x hs] [|y ls] [|z cs] [|u vs] n; cbn [length zip4]; intros; try lia. destruct n; [lia|]. f_equal. apply IH; lia.
Qed.
Lemma rix_adx : forall h l c ind fl P, (forall rows, aligned_scope ind rows) -> ix P c -> rix P (a_adx h l c ind fl).
Proof.
  intros h l c ind fl P S C r E. unfold a_adx in E. destruct (_ && _) eqn:B; [|discriminate E]. apply andb_prop in B as [B _]. apply andb_prop in B as [B1 B2].
  apply Nat.eqb_eq in B1, B2. destruct (compute _ _ _) as [x|e] eqn:X; [|discriminate E]. injection E as <-. apply ix_combine; [|exact C].
  apply compute_length in X; [|apply S]. rewrite X. apply len_zip4; rewrite ?len_labels, ?len_values; congruence.
Qed.
Definition rixk (P Q R : mask) (x : result (akc (F := F))) : Prop := forall s, x = Ok s -> ix P (ak_tp s) /\ ix Q (ak_high s) /\ ix R (ak_low s).
Lemma rix_bindk : forall P Q R S x f, rixk P Q R x -> (forall s, ix P (ak_tp s) -> ix Q (ak_high s) -> ix R (ak_low s) -> rix S (f s)) -> rix S (bind x f).
Proof. intros P Q R S x f H G r E. destruct x as [s|e]; [|discriminate E]. destruct (H s eq_refl) as (? & ? & ?). apply (G s); assumption. Qed.
Lemma rixk_bind : forall P Q R S x f, rix S x -> (forall a, ix S a -> rixk P Q R (f a)) -> rixk P Q R (bind x f).
Proof. intros P Q R S x f H G r E. destruct x as [a|e]; [|discriminate E]. exact (G a (H a eq_refl) r E). Qed.
Lemma rixk_ok : forall P Q R a b d, ix P a -> ix Q b -> ix R d -> rixk P Q R (Ok {| ak_tp := a; ak_high := b; ak_low := d |}).
Proof. intros P Q R a b d H G K s E. injection E as <-. auto. Qed.
Lemma rix_obv : forall c v fl P, ix P c -> rix P (a_obv c v fl).
Proof.
  intros c v fl P C. unfold a_obv. cbv zeta. destruct (negb _ && negb _) eqn:B; [apply rix_raise|]. apply rix_ok, ix_fill, ix_combine; [|exact C].
  rewrite (ln_cumsum _ (length c)); [reflexivity|]. apply ln_map3; rewrite ?len_shift; try apply len_values. destruct (Nat.eqb_spec (length v) (length c)) as [E|E].
  - rewrite len_values. exact E.
  - apply repeat_length.
Qed.
Lemma rix_nvi : forall c v fl P, ix P c -> rix P (a_nvi c v fl).
Proof.
  intros c v fl P C. unfold a_nvi. destruct (_ && _) eqn:B; [apply rix_raise|]. apply rix_any. intros x X. apply rix_ok, ix_combine; [|exact C].
  destruct c as [|[t0 y] [|[t1 z] c]].
  - discriminate X.
  - cbn in X. injection X as <-. rewrite len_check. cbn [length]. destruct (values v); reflexivity.
  - cbn [length Nat.leb andb] in B. apply Nat.ltb_ge in B. apply nvi_len in X; [rewrite X; apply len_values|].
    rewrite firstn_length, !len_values. cbn [length] in *. lia.
Qed.
Lemma rix_mfi : forall h l c v w fl P, ix P (cmul (a_typical h l c) v) -> rix P (a_mfi h l c v w fl).
Proof.
  intros h l c v w fl P H. unfold a_mfi. cbv zeta. destruct (negb _ && negb _) eqn:B; [apply rix_raise|].
  set (flow := cmul (a_typical h l c) v) in *. set (tp := values (a_typical h l c)) in *.
  match goal with |- context [combine (labels flow) ?x] => assert (M : ix P (combine (labels flow) x)) end.
  { apply ix_combine; [|exact H]. apply ln_map2; [apply len_values|]. destruct (Nat.eqb_spec (length flow) (length tp)) as [E|E].
    - rewrite E. apply ln_map2; [reflexivity|apply len_shift].
    - apply repeat_length. }
  eapply rix_bind; [apply rix_roll, M|intros a Ha]. eapply rix_bind; [apply rix_roll, M|intros b Hb]. apply rix_ok, ix_fill, ix_cmap.
  assert (D : ix (mor P P) (cdiv a (cmap fabs b))) by (apply ix_op2; [exact Ha|apply ix_cmap, Hb]).
  destruct P as [[|] [|] [|] [|]]; exact D.
Qed.
Lemma rix_psar : forall h l c s m P f, ix P c -> (forall st, length (ps_psar st) = length c -> length (ps_up st) = length c -> length (ps_down st) = length c -> psar_labels c st = labels c -> rix P (f st)) ->
  rix P (bind (a_psar h l c false s m) f).
Proof.
  intros h l c s m P f C H. unfold a_psar. destruct (_ || _); [intros a E; discriminate E|]. apply rix_any. intros st E.
  apply psar_run_ok in E; [|discriminate]. destruct E as (E0 & E1 & E2 & E3). rewrite len_values in *. apply H; try assumption. unfold psar_labels. rewrite E0. reflexivity.
Qed.
End Index.


Ltac ix1 := lazymatch goal with
  | |- ix _ _ _ => first [ eassumption | apply ix_fill | apply ix_cmap | eapply ix_op2 | eapply ix_tr | eapply ix_reindex
    | apply ix_each; [intros; first [apply len_shift | apply len_check | apply len_pct | solve [apply ln_diff1; reflexivity] | solve [apply ln_cumsum; reflexivity]
      | solve [apply ln_fill_const; reflexivity] | solve [apply ln_donchian_offset; reflexivity] | solve [apply ln_shift_fill; reflexivity] ]|] ]
  | |- rix _ _ (Ok _) => apply rix_ok
  | |- rix2 _ _ _ (Ok _) => apply rix2_ok
  | |- rix _ _ (alone _ _ _) => eapply rix_alone; [intros; exact I|]
  | |- rix _ _ (a_adx _ _ _ _ _) => eapply rix_adx; [intros; exact I|]
  | |- rix2 _ _ _ (a_aroon _ _ _ _) => eapply rix2_aroon
  | |- rixk _ _ _ _ (Ok _) => eapply rixk_ok
  | |- rixk _ _ _ _ (bind _ _) => eapply rixk_bind; [|intros]
  | |- rix _ _ (eachr (ewm_span _ _) _) => eapply rix_eachr; [intros ? ?; apply len_ewm_span|]
  | |- rix _ _ (a_obv _ _ _) => eapply rix_obv
  | |- rix _ _ (a_nvi _ _ _) => eapply rix_nvi
  | |- rix _ _ (a_mfi _ _ _ _ _ _) => eapply rix_mfi; unfold cmul, a_typical, cadd
  | |- rix _ _ (if same_index _ _ then _ else _) => destruct (same_index _ _); [|apply rix_raise]
  | |- rix _ _ (croll _ _ _ _) => eapply rix_roll
  | |- rix _ _ (cema _ _ _) => eapply rix_ema
  | |- rix _ _ (a_atr _ _ _ _ _) => eapply rix_atr
  | |- rix2 _ _ _ (bind _ _) => eapply rix2_bind; [|intros]
  | |- rix _ _ (bind ?x _) => lazymatch type of x with result (column _ * column _) => eapply rix_bind2; [|intros] | result (column _) => eapply rix_bind; [|intros] | result akc => eapply rix_bindk; [|intros] end
  end.
Ltac unf_cols := unfold a_uo, a_stoch, a_stoch_signal, a_stoch_run, a_awesome, a_williams, a_aroon_up, a_aroon_down, a_aroon_ind,
  a_mass, a_ichi_conv, a_ichi_base, a_ichi_a, a_ichi_b, a_ichimoku, a_mid, a_visual, a_cci, a_vortex_pos, a_vortex_neg, a_vortex_diff, a_vortex,
  a_kc_m, a_kc_h, a_kc_l, a_kc_w, a_kc_p, a_kc_hi, a_kc_li, a_keltner, a_dc_h, a_dc_l, a_dc_m, a_dc_w, a_dc_p, a_donchian,
  a_adi, a_cmf, a_clv, a_fi, a_eom, a_sma_eom, a_emv, a_vpt, a_vwap, cadd, csub, cmul, cdiv; unfold a_typical, cadd.
Section Table.
Context {F : Type} {A : Arith F}.
Definition mask_of (ind : indicator F) : mask := fold_right (fun x p => mor (only x) p) (Build_mask false false false false) (index_from ind).
Theorem index_apart : forall (ind : indicator F) fillna k, all_ascending k -> drops_rows ind = false -> label_dependent ind = false ->
  rix k (mask_of ind) (compute_apart ind fillna k).
Proof.
  intros ind fillna k (Sh & Sl & Sc & Sv) D L.
  pose proof (ix_self k High Sh) as Ih. pose proof (ix_self k Low Sl) as Il. pose proof (ix_self k Close Sc) as Ic. pose proof (ix_self k Volume Sv) as Iv.
  cbn [pick] in Ih, Il, Ic, Iv.
  destruct ind; cbn [drops_rows label_dependent] in D, L; try discriminate D; try discriminate L; cbn [compute_apart mask_of index_from].
  all: try (destruct original_version).
  all: unf_cols; cbv zeta; cbn [bind].
  all: try (destruct visual).
  all: try (eapply rix_is; [|solve [repeat ix1]]; reflexivity).
  all: try (destruct int_index; [discriminate L|]; eapply rix_psar; [exact Ic|intros st Q1 Q2 Q3 Q4; rewrite ?Q4; apply rix_ok; try apply ix_fill; apply ix_combine;
    [rewrite ?psar_indicator_len by congruence; assumption|exact Ic]]).
  all: try (destruct smoothing_factor as [z|]; [destruct (z =? 0)%Z|]; cbn [bind]; destruct dropnans; try discriminate D; (eapply rix_is; [|solve [repeat ix1]]; reflexivity)).
Qed.
Lemma mhas_index : forall xs x, mhas (fold_right (fun x p => mor (only x) p) (Build_mask false false false false) xs) x = true <-> In x xs.
Proof.
  induction xs as [|y xs IH]; intros x; cbn [fold_right In].
  - destruct x; cbn; split; intro H; try discriminate H; destruct H.
  - rewrite mhas_mor, orb_true_iff, IH. split; (intros [H|H]; [left|right; exact H]); destruct x, y; try discriminate H; reflexivity.
Qed.
Theorem result_index : forall (ind : indicator F) fillna k out, all_ascending k -> drops_rows ind = false -> label_dependent ind = false ->
  compute_apart ind fillna k = Ok out ->
  ascending out /\ forall t, In t (labels out) <-> exists x, In x (index_from ind) /\ In t (labels (pick k x)).
Proof.
  intros ind fillna k out S D L E. destruct (index_apart ind fillna k S D L out E) as [U V]. split; [exact U|]. intros t. rewrite V. unfold within, mask_of.
  split; intros (x & X & Y); exists x; (split; [apply mhas_index, X|exact Y]).
Qed.
End Table.
