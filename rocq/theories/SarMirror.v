(** * SarMirror: PSAR of the mirrored market (C71). *)
From Coq Require Import Reals Lra.
From Verif Require Import Lists Api SpecCausal SpecNum SpecStop SpecSarMeet SpecMirror Align CausalPsar CausalAdx Tab Sar Stop Mirror UoMirror SarMeet.
Local Open Scope R_scope.

(** states of the two runs that mirror each other, apart from the stop *)
Definition mcore (s t : @tstate xr) : Prop :=
  t_up t = negb (t_up s) /\ t_af t = t_af s /\ (if t_up s then t_dtl t = fopp (t_uth s) else t_uth t = fopp (t_dtl s)).
Definition mfull (s t : @tstate xr) : Prop := mcore s t /\ t_val t = fopp (t_val s).

Lemma up_move : forall p a e : xr, fsub (fopp p) (fmul a (fsub (fopp p) (fopp e))) = fopp (fadd p (fmul a (fsub e p))).
Proof. intros p a e. rewrite n_sub_swap. set (x := fmul a (fsub e p)). destruct p as [| | |p], x as [| | |x]; cbn; auto. f_equal. lra. Qed.
Lemma down_move : forall p a e : xr, fadd (fopp p) (fmul a (fsub (fopp e) (fopp p))) = fopp (fsub p (fmul a (fsub p e))).
Proof. intros p a e. rewrite n_sub_swap. set (x := fmul a (fsub p e)). destruct p as [| | |p], x as [| | |x]; cbn; auto. f_equal. lra. Qed.
Lemma ltb_n_l : forall x y : xr, fltb (fopp x) y = fltb (fopp y) x.
Proof. intros x y. rewrite <- (n_inv y) at 1. now rewrite n_ltb. Qed.
Lemma if_opp : forall (b : bool) (x y : xr), (if b then fopp x else fopp y) = fopp (if b then x else y).
Proof. now intros [|]. Qed.

Section Step.
Variables (step mx : xr) (h l h' l' : list xr) (i : nat).
Hypothesis Eh : forall j, nth j h' fnan = fopp (nth j l fnan).
Hypothesis El : forall j, nth j l' fnan = fopp (nth j h fnan).
Notation nx := (t_next step mx h l).
Notation nx' := (t_next step mx h' l').
Lemma m_first_turn : forall s t, t_up t = negb (t_up s) -> t_up (nx s i) = negb (t_up s) -> t_up (nx' t i) = negb (t_up t) -> mcore (nx s i) (nx' t i).
Proof.
  intros s t E H1 H2. unfold t_next in *. rewrite E in *. destruct (t_up s); cbn [negb] in *.
  - destruct (fltb (nth i l fnan) _); cbn [t_up] in H1; [|discriminate]. destruct (fltb _ (nth i h' fnan)); cbn [t_up] in H2; [|discriminate].
    unfold mcore. cbn [t_up t_af t_dtl t_uth negb]. auto.
  - destruct (fltb _ (nth i h fnan)); cbn [t_up] in H1; [|discriminate]. destruct (fltb (nth i l' fnan) _); cbn [t_up] in H2; [|discriminate].
    unfold mcore. cbn [t_up t_af t_dtl t_uth negb]. auto.
Qed.
Lemma m_next_turn : forall s t, mcore s t -> t_up (nx s i) = negb (t_up s) -> t_up (nx' t i) = negb (t_up t) -> mfull (nx s i) (nx' t i).
Proof.
  intros s t C H1 H2. split; [apply m_first_turn; auto; apply C|]. destruct C as (E & Ea & Ex). unfold t_next in *. rewrite E in *. destruct (t_up s); cbn [negb] in *.
  - destruct (fltb (nth i l fnan) _); cbn [t_up] in H1; [|discriminate]. destruct (fltb _ (nth i h' fnan)); cbn [t_up] in H2; [|discriminate]. cbn [t_val]. auto.
  - destruct (fltb _ (nth i h fnan)); cbn [t_up] in H1; [|discriminate]. destruct (fltb (nth i l' fnan) _); cbn [t_up] in H2; [|discriminate]. cbn [t_val]. auto.
Qed.
Lemma m_no_turn : forall s t, mcore s t -> t_up (nx s i) = t_up s -> t_up (nx' t i) = t_up t -> mcore (nx s i) (nx' t i).
Proof.
  intros s t (E & Ea & Ex) H1 H2. unfold t_next in *. rewrite E in *. rewrite Eh, El, Ea in *. destruct (t_up s); cbn [negb] in *.
  - destruct (fltb (nth i l fnan) _); cbn [t_up] in H1; [discriminate|]. destruct (fltb _ (fopp (nth i l fnan))); cbn [t_up] in H2; [discriminate|].
    unfold mcore. cbn [t_up t_af t_dtl t_uth negb]. rewrite Ex, n_ltb. split; [auto|]. split; [auto|]. apply if_opp.
  - destruct (fltb _ (nth i h fnan)); cbn [t_up] in H1; [discriminate|]. destruct (fltb (fopp (nth i h fnan)) _); cbn [t_up] in H2; [discriminate|].
    unfold mcore. cbn [t_up t_af t_dtl t_uth negb]. rewrite Ex, n_ltb. split; [auto|]. split; [auto|]. apply if_opp.
Qed.
Lemma m_core_step : forall s t, mcore s t -> t_up (nx' t i) = negb (t_up (nx s i)) -> mcore (nx s i) (nx' t i).
Proof.
  intros s t C E. destruct (Bool.bool_dec (t_up (nx s i)) (t_up s)) as [D|D].
  - apply m_no_turn; auto. rewrite E, D. symmetry. apply C.
  - assert (X : t_up (nx s i) = negb (t_up s)) by (destruct (t_up s), (t_up (nx s i)); auto; congruence).
    apply m_first_turn; auto; [apply C|]. rewrite E, X. f_equal. symmetry. apply C.
Qed.
Lemma m_full_step : forall s t, mfull s t -> mfull (nx s i) (nx' t i).
Proof.
  intros s t ((E & Ea & Ex) & Ev). unfold t_next. rewrite E, !Eh, !El, Ea, Ev. destruct (t_up s) eqn:U; cbn [negb]; rewrite Ex.
  - rewrite up_move. set (v := fadd (t_val s) _). rewrite n_ltb. destruct (fltb (nth i l fnan) v).
    + unfold mfull, mcore. cbn [t_up t_af t_uth t_dtl t_val negb]. auto.
    + rewrite !n_ltb. unfold mfull, mcore. cbn [t_up t_af t_uth t_dtl t_val negb]. rewrite !if_opp. auto.
  - rewrite down_move. set (v := fsub (t_val s) _). rewrite n_ltb. destruct (fltb v (nth i h fnan)).
    + unfold mfull, mcore. cbn [t_up t_af t_uth t_dtl t_val negb]. auto.
    + rewrite !n_ltb. unfold mfull, mcore. cbn [t_up t_af t_uth t_dtl t_val negb]. rewrite !if_opp. auto.
Qed.
End Step.

Section Runs.
Variables (step mx : xr) (rows : list (bar xr)).
Let T := t_at step mx (map b_high rows) (map b_low rows) (map b_close rows).
Let T' := t_at step mx (map b_high (mirrored rows)) (map b_low (mirrored rows)) (map b_close (mirrored rows)).
Lemma m_high : forall j, nth j (map b_high (mirrored rows)) fnan = fopp (nth j (map b_low rows) fnan).
Proof. intros j. unfold mirrored. rewrite map_map. cbn [b_high]. rewrite <- (map_nth (@fopp xr XR)). cbn [fopp XR fnan xopp]. rewrite map_map. reflexivity. Qed.
Lemma m_low : forall j, nth j (map b_low (mirrored rows)) fnan = fopp (nth j (map b_high rows) fnan).
Proof. intros j. unfold mirrored. rewrite map_map. cbn [b_low]. rewrite <- (map_nth (@fopp xr XR)). cbn [fopp XR fnan xopp]. rewrite map_map. reflexivity. Qed.
Lemma m_meet : forall i j, (2 <= i < j)%nat ->
  (forall r, (i - 1 <= r <= j)%nat -> t_up (T' r) = negb (t_up (T r))) ->
  t_up (T i) = negb (t_up (T (i - 1)%nat)) -> t_up (T j) = negb (t_up (T (j - 1)%nat)) ->
  forall r, (j <= r)%nat -> mfull (T r) (T' r).
Proof.
  intros i j Hij Sd Ti Tj.
  assert (St : forall r, (i <= r)%nat -> T r = t_next step mx (map b_high rows) (map b_low rows) (T (r - 1)%nat) r /\
    T' r = t_next step mx (map b_high (mirrored rows)) (map b_low (mirrored rows)) (T' (r - 1)%nat) r).
  { intros r Hr. unfold T, T'. rewrite (t_at_S _ _ _ _ _ r), (t_at_S _ _ _ _ _ r) by lia. auto. }
  assert (C : forall d, (i + d < j)%nat -> mcore (T (i + d)%nat) (T' (i + d)%nat)).
  { induction d; intros Hd.
    - replace (i + 0)%nat with i by lia. destruct (St i ltac:(lia)) as [E E'].
      rewrite E, E'. apply m_first_turn; auto using m_high, m_low; [apply Sd; lia|rewrite <- E; auto|].
      rewrite <- E', Sd by lia. rewrite Ti. f_equal. symmetry. apply Sd. lia.
    - destruct (St (i + S d)%nat ltac:(lia)) as [E E'].
      rewrite E, E'. replace (i + S d - 1)%nat with (i + d)%nat in * by lia. apply m_core_step; auto using m_high, m_low; [apply IHd; lia|].
      rewrite <- E, <- E'. apply Sd. lia. }
  intros r Hr. replace r with (j + (r - j))%nat by lia. generalize (r - j)%nat. clear r Hr. induction n.
  - replace (j + 0)%nat with j by lia. destruct (St j ltac:(lia)) as [E E'].
    rewrite E, E'. specialize (C (j - 1 - i)%nat ltac:(lia)). replace (i + (j - 1 - i))%nat with (j - 1)%nat in C by lia.
    apply m_next_turn; auto using m_high, m_low; [rewrite <- E; auto|]. rewrite <- E', Sd by lia. rewrite Tj. f_equal. symmetry. apply Sd. lia.
  - destruct (St (j + S n)%nat ltac:(lia)) as [E E']. rewrite E, E'. replace (j + S n - 1)%nat with (j + n)%nat by lia.
    apply m_full_step; auto using m_high, m_low.
Qed.
End Runs.

(** rows i of both runs show their stops on opposite sides *)
Lemma psar_mirrors : forall b step mx (rows : list (bar xr)) ps up dn ps' up' dn',
  b = false \/ default_index rows ->
  compute (Psar b step mx) false rows = Ok ps -> compute (PsarUp b step mx) false rows = Ok up -> compute (PsarDown b step mx) false rows = Ok dn ->
  compute (Psar b step mx) false (mirrored rows) = Ok ps' -> compute (PsarUp b step mx) false (mirrored rows) = Ok up' -> compute (PsarDown b step mx) false (mirrored rows) = Ok dn' ->
  forall i j, (1 <= i < j)%nat -> (j < length rows)%nat -> turns up dn i -> turns up dn j ->
  (forall r, (i - 1 <= r <= j)%nat -> same_side up dn dn' up' r r) ->
  forall r, (j <= r)%nat -> (r < length rows)%nat ->
    nth r ps' fnan = opposite (nth r ps fnan) /\ nth r up' fnan = opposite (nth r dn fnan) /\ nth r dn' fnan = opposite (nth r up fnan).
Proof.
  intros b step mx rows ps up dn ps' up' dn' Hb Hp Hu Hd Hp' Hu' Hd' i j Hij Hj Ti Tj Sd r Hr Hlen.
  assert (Len : length (mirrored rows) = length rows) by apply map_length.
  assert (Hb' : b = false \/ default_index (mirrored rows)).
  { destruct Hb as [Hb|Hb]; [now left|right]. unfold default_index in *. rewrite Len. unfold mirrored. rewrite map_map. exact Hb. }
  destruct (psar_positional xr XR b step mx false rows Hb) as (E1 & E2 & E3 & _).
  destruct (psar_positional xr XR b step mx false (mirrored rows) Hb') as (E1' & E2' & E3' & _).
  rewrite E1 in Hp. rewrite E2 in Hu. rewrite E3 in Hd. rewrite E1' in Hp'. rewrite E2' in Hu'. rewrite E3' in Hd'. clear E1 E2 E3 E1' E2' E3'.
  destruct (psar_frame xr XR step mx false rows up dn ps Hp) as (st & Er & F1 & F2 & F3 & _).
  destruct (psar_frame xr XR step mx false (mirrored rows) up' dn' ps' Hp') as (st' & Er' & F1' & F2' & F3' & _).
  rewrite F1 in Hp. rewrite F2 in Hu. rewrite F3 in Hd. rewrite F1' in Hp'. rewrite F2' in Hu'. rewrite F3' in Hd'. clear F1 F2 F3 F1' F2' F3'.
  cbn [check_fillna] in *. apply ok_inj in Hp, Hu, Hd, Hp', Hu', Hd'. subst ps up dn ps' up' dn'.
  apply psar_trace in Er; [|now rewrite !map_length]. apply psar_trace in Er'; [|now rewrite !map_length]. rewrite map_length in Er, Er'.
  destruct Er as (L1 & L2 & L3 & R). destruct Er' as (L1' & L2' & L3' & R'). rewrite Len in R'.
  set (T := t_at step mx (map b_high rows) (map b_low rows) (map b_close rows)) in *.
  set (T' := t_at step mx (map b_high (mirrored rows)) (map b_low (mirrored rows)) (map b_close (mirrored rows))) in *.
  assert (Side : forall r, (i - 1 <= r <= j)%nat -> (2 <= r)%nat /\ t_up (T' r) = negb (t_up (T r))).
  { intros q Hq. destruct (Sd q Hq) as [[S1 S2]|[S1 S2]]; unfold stop_on in S1, S2;
      destruct (R q ltac:(lia)) as (_ & Ru & Rd); destruct (R' q ltac:(lia)) as (_ & Ru' & Rd').
    - rewrite Ru in S1. rewrite Rd' in S2. apply up_at in S1. apply dn_at in S2. destruct S1 as [? ->], S2 as [? ->]. auto.
    - rewrite Rd in S1. rewrite Ru' in S2. apply dn_at in S1. apply up_at in S2. destruct S1 as [? ->], S2 as [? ->]. auto. }
  assert (Turn : forall q, (i <= q <= j)%nat -> turns (ps_up st) (ps_down st) q -> t_up (T q) = negb (t_up (T (q - 1)%nat))).
  { intros q Hq Tq. unfold turns, stop_on in Tq.
    destruct (R q ltac:(lia)) as (_ & Ru & Rd); destruct (R (q - 1)%nat ltac:(lia)) as (_ & Ru' & Rd').
    rewrite Ru, Rd, Ru', Rd' in Tq. destruct Tq as [[S1 S2]|[S1 S2]].
    - apply up_at in S1. apply dn_at in S2. destruct S1 as [_ ->], S2 as [_ ->]. auto.
    - apply dn_at in S1. apply up_at in S2. destruct S1 as [_ ->], S2 as [_ ->]. auto. }
  assert (M : mfull (T r) (T' r)).
  { assert (I2 : (2 <= i - 1)%nat) by (apply Side; lia). apply (m_meet step mx rows i j); auto; try lia; try (apply Turn; auto; lia). intros q Hq. now apply Side. }
  assert (J : (2 <= r)%nat) by (destruct (Side j ltac:(lia)) as (? & _); lia).
  destruct (R r ltac:(lia)) as (Rp & Ru & Rd). destruct (R' r ltac:(lia)) as (Rp' & Ru' & Rd'). rewrite Rp, Ru, Rd, Rp', Ru', Rd'.
  destruct M as ((Eu & _) & Ev). rewrite Eu, Ev. destruct (Nat.ltb_spec r 2); [lia|]. destruct (t_up (T r)); cbn [negb andb]; repeat split; reflexivity.
Qed.

(** six bars; the stops of both runs turn on rows 3 and 4 *)
Definition swing_h (i : nat) : R := nth i [11; 9; 5; 9; 5; 4] 0.
Definition swing_l (i : nat) : R := nth i [3; 7; 4; 8; 3; 2] 0.
Definition swing_c (i : nat) : R := nth i [10; 8; 5; 8; 4; 3] 0.
Ltac sar_go := unfold sar_next, sar_move; cbn [sar_up sar_val sar_af sar_high sar_low]; unfold swing_h, swing_l; cbn [nth Nat.sub];
  repeat (destruct (Rlt_dec _ _); try lra); unfold Rmin, Rmax; repeat (destruct (Rle_dec _ _); try lra); f_equal; lra.
Section Swing.
Let T := sar_at (1/2) (1/2) swing_h swing_l swing_c.
Let T' := sar_at (1/2) (1/2) (fun i => - swing_l i) (fun i => - swing_h i) (fun i => - swing_c i).
Lemma swing : sar_up (T 2) = false /\ sar_up (T 3) = true /\ sar_up (T 4) = false /\ T 2 = mksar false (1/2) 11 4 11 /\ T 3 = mksar true (1/2) 9 4 4.
Proof.
  assert (E1 : T 1 = mksar true (1/2) 11 3 8) by reflexivity.
  assert (E2 : T 2 = mksar false (1/2) 11 4 11). { change (T 2) with (sar_next (1/2) (1/2) swing_h swing_l (T 1) 2). rewrite E1. sar_go. }
  assert (E3 : T 3 = mksar true (1/2) 9 4 4). { change (T 3) with (sar_next (1/2) (1/2) swing_h swing_l (T 2) 3). rewrite E2. sar_go. }
  assert (E4 : T 4 = mksar false (1/2) 9 3 9). { change (T 4) with (sar_next (1/2) (1/2) swing_h swing_l (T 3) 4). rewrite E3. sar_go. }
  rewrite E2, E3, E4. auto.
Qed.
Lemma swing' : sar_up (T' 2) = true /\ sar_up (T' 3) = false /\ sar_up (T' 4) = true /\ sar_val (T' 3) = -3.
Proof.
  assert (E1 : T' 1 = mksar true (1/2) (-3) (-11) (-8)) by reflexivity.
  assert (E2 : T' 2 = mksar true (1/2) (-3) (-11) (-11)). { change (T' 2) with (sar_next (1/2) (1/2) (fun i => - swing_l i) (fun i => - swing_h i) (T' 1) 2). rewrite E1. sar_go. }
  assert (E3 : T' 3 = mksar false (1/2) (-3) (-9) (-3)). { change (T' 3) with (sar_next (1/2) (1/2) (fun i => - swing_l i) (fun i => - swing_h i) (T' 2) 3). rewrite E2. sar_go. }
  assert (E4 : T' 4 = mksar true (1/2) (-3) (-9) (-9)). { change (T' 4) with (sar_next (1/2) (1/2) (fun i => - swing_l i) (fun i => - swing_h i) (T' 3) 4). rewrite E3. sar_go. }
  rewrite E2, E3, E4. auto.
Qed.
End Swing.
Lemma swing_case : let bars := frame 6 swing_h swing_l swing_c (fun _ => 1) in let half := Fin (1 / 2) in exists ps up dn ps' up' dn',
  compute (Psar true half half) false bars = Ok ps /\ compute (PsarUp true half half) false bars = Ok up /\
  compute (PsarDown true half half) false bars = Ok dn /\ compute (Psar true half half) false (mirrored bars) = Ok ps' /\
  compute (PsarUp true half half) false (mirrored bars) = Ok up' /\ compute (PsarDown true half half) false (mirrored bars) = Ok dn' /\
  turns up dn 3 /\ turns up dn 4 /\ forall r, (3 - 1 <= r <= 4)%nat -> same_side up dn dn' up' r r.
Proof.
  cbv zeta. rewrite mirrored_frame.
  destruct (psar_formula true (1/2) (1/2) 6 swing_h swing_l swing_c (fun _ => 1) ltac:(lia)) as (E1 & E2 & E3).
  destruct (psar_formula true (1/2) (1/2) 6 (fun i => - swing_l i) (fun i => - swing_h i) (fun i => - swing_c i) (fun _ => 1) ltac:(lia)) as (E1' & E2' & E3').
  rewrite E1, E2, E3, E1', E2', E3'. do 6 eexists. do 6 (split; [reflexivity|]).
  destruct swing as (A2 & A3 & A4 & _). destruct swing' as (B2 & B3 & B4 & _).
  assert (X : forall f i, (i < 6)%nat -> f i <> NaN -> @stop_on xr XR (tab 6 f) i).
  { intros f i Hi Hf. unfold stop_on. change (@fnan xr XR) with NaN. rewrite nth_tab by lia. destruct (f i); auto; congruence. }
  assert (Y : forall r, (3 - 1 <= r <= 4)%nat -> r = 2%nat \/ r = 3%nat \/ r = 4%nat) by lia.
  split; [|split].
  - right. split; apply X; cbn [Nat.ltb Nat.leb Nat.sub]; try lia; rewrite ?A2, ?A3; discriminate.
  - left. split; apply X; cbn [Nat.ltb Nat.leb Nat.sub]; try lia; rewrite ?A4, ?A3; discriminate.
  - intros r Hr. destruct (Y r Hr) as [E|[E|E]]; rewrite E; [right|left|right]; split; apply X; cbn [Nat.ltb Nat.leb Nat.sub]; try lia;
      rewrite ?A2, ?A3, ?A4, ?B2, ?B3, ?B4; discriminate.
Qed.
Lemma one_turn_differs : let half := Fin (1 / 2) in
  ~ (forall (rows : list (bar xr)) ps up dn ps' up' dn', default_index rows ->
       compute (Psar true half half) false rows = Ok ps -> compute (PsarUp true half half) false rows = Ok up ->
       compute (PsarDown true half half) false rows = Ok dn -> compute (Psar true half half) false (mirrored rows) = Ok ps' ->
       compute (PsarUp true half half) false (mirrored rows) = Ok up' -> compute (PsarDown true half half) false (mirrored rows) = Ok dn' ->
       forall i, (1 <= i < length rows)%nat -> turns up dn i -> same_side up dn dn' up' (i - 1) (i - 1) -> same_side up dn dn' up' i i ->
       nth i ps' NaN = opposite (nth i ps NaN)).
Proof.
  intros half H. destruct swing_case as (ps & up & dn & ps' & up' & dn' & E1 & E2 & E3 & E1' & E2' & E3' & T3 & T4 & S).
  specialize (H (frame 6 swing_h swing_l swing_c (fun _ => 1)) _ _ _ _ _ _ eq_refl E1 E2 E3 E1' E2' E3' 3%nat ltac:(cbn; lia) T3 (S 2%nat ltac:(lia)) (S 3%nat ltac:(lia))).
  rewrite mirrored_frame in E1'.
  destruct (psar_formula true (1/2) (1/2) 6 swing_h swing_l swing_c (fun _ => 1) ltac:(lia)) as (F1 & _).
  destruct (psar_formula true (1/2) (1/2) 6 (fun i => - swing_l i) (fun i => - swing_h i) (fun i => - swing_c i) (fun _ => 1) ltac:(lia)) as (F1' & _).
  unfold half in *. rewrite E1 in F1. rewrite E1' in F1'. apply ok_inj in F1, F1'. subst ps ps'. rewrite !nth_tab in H by lia.
  destruct swing as (_ & _ & _ & _ & V). destruct swing' as (_ & _ & _ & V'). rewrite V, V' in H. cbn in H. injection H as H. lra.
Qed.
