(** * SarMeet: PSAR forgets its history after two common reversals (C106). *)
From Coq Require Import Reals Lra.
From Verif Require Import Lists Api SpecCausal SpecNum SpecStop SpecSarMeet Align CausalPsar CausalAdx Tab Sar Stop.

Lemma nth_map_lt : forall {A B} (g : A -> B) l i d d', (i < length l)%nat -> nth i (map g l) d = g (nth i l d').
Proof. intros A B g l i d d' H. rewrite (nth_indep _ d (g d')) by (now rewrite map_length). apply map_nth. Qed.

Section Gen.
Context {F : Type} {A : Arith F} {L : ArithLaws F}.
Local Open Scope f_scope.

Lemma ok_inj : forall {B} (x y : B), Ok x = Ok y -> x = y.
Proof. intros B x y E. now injection E. Qed.

(** what a trend carries apart from the stop itself *)
Definition core (s t : @tstate F) : Prop :=
  t_up s = t_up t /\ t_af s = t_af t /\ (if t_up s then t_uth s = t_uth t else t_dtl s = t_dtl t).
Definition full (s t : @tstate F) : Prop := core s t /\ t_val s = t_val t.

Section Step.
Variables (step mx : F) (h l h' l' : list F) (i i' : nat).
Hypothesis Eh : nth i h fnan = nth i' h' fnan.
Hypothesis El : nth i l fnan = nth i' l' fnan.
Notation nx := (t_next step mx h l).
Notation nx' := (t_next step mx h' l').

Lemma first_turn : forall s t, t_up s = t_up t -> t_up (nx s i) = negb (t_up s) -> t_up (nx' t i') = negb (t_up t) -> core (nx s i) (nx' t i').
Proof.
  intros s t E H1 H2. unfold t_next in *. rewrite <- E in *. destruct (t_up s).
  - destruct (nth i l fnan <.? _); cbn [t_up negb] in H1; [|discriminate]. destruct (nth i' l' fnan <.? _); cbn [t_up negb] in H2; [|discriminate].
    unfold core. cbn [t_up t_af t_dtl]. auto.
  - destruct (_ <.? nth i h fnan); cbn [t_up negb] in H1; [|discriminate]. destruct (_ <.? nth i' h' fnan); cbn [t_up negb] in H2; [|discriminate].
    unfold core. cbn [t_up t_af t_uth]. auto.
Qed.
Lemma next_turn : forall s t, core s t -> t_up (nx s i) = negb (t_up s) -> t_up (nx' t i') = negb (t_up t) -> full (nx s i) (nx' t i').
Proof.
  intros s t C H1 H2. split; [apply first_turn; auto; apply C|]. destruct C as (E & Ea & Ex). unfold t_next in *. rewrite <- E in *. destruct (t_up s).
  - destruct (nth i l fnan <.? _); cbn [t_up negb] in H1; [|discriminate]. destruct (nth i' l' fnan <.? _); cbn [t_up negb] in H2; [|discriminate].
    cbn [t_val]. auto.
  - destruct (_ <.? nth i h fnan); cbn [t_up negb] in H1; [|discriminate]. destruct (_ <.? nth i' h' fnan); cbn [t_up negb] in H2; [|discriminate].
    cbn [t_val]. auto.
Qed.
Lemma no_turn : forall s t, core s t -> t_up (nx s i) = t_up s -> t_up (nx' t i') = t_up t -> core (nx s i) (nx' t i').
Proof.
  intros s t (E & Ea & Ex) H1 H2. unfold t_next in *. rewrite <- E in *. rewrite <- Eh, <- El in *. destruct (t_up s).
  - destruct (nth i l fnan <.? _); cbn [t_up negb] in H1; [discriminate|]. destruct (nth i l fnan <.? _); cbn [t_up negb] in H2; [discriminate|].
    unfold core. cbn [t_up t_af t_uth]. rewrite <- Ex, <- Ea. auto.
  - destruct (_ <.? nth i h fnan); cbn [t_up negb] in H1; [discriminate|]. destruct (_ <.? nth i h fnan); cbn [t_up negb] in H2; [discriminate|].
    unfold core. cbn [t_up t_af t_dtl]. rewrite <- Ex, <- Ea. auto.
Qed.
Lemma core_step : forall s t, core s t -> t_up (nx s i) = t_up (nx' t i') -> core (nx s i) (nx' t i').
Proof.
  intros s t C E. destruct (Bool.bool_dec (t_up (nx s i)) (t_up s)) as [D|D].
  - apply no_turn; auto. rewrite <- E, D. apply C.
  - assert (X : t_up (nx s i) = negb (t_up s)) by (destruct (t_up s), (t_up (nx s i)); auto; congruence).
    apply first_turn; auto; [apply C|]. rewrite <- E, X. f_equal. apply C.
Qed.
Lemma full_step : nth (i - 1) h fnan = nth (i' - 1) h' fnan -> nth (i - 1) l fnan = nth (i' - 1) l' fnan ->
  nth (i - 2) h fnan = nth (i' - 2) h' fnan -> nth (i - 2) l fnan = nth (i' - 2) l' fnan ->
  forall s t, full s t -> full (nx s i) (nx' t i').
Proof.
  intros Eh1 El1 Eh2 El2 s t ((E & Ea & Ex) & Ev). unfold t_next. rewrite <- E, <- Eh, <- El, <- Eh1, <- El1, <- Eh2, <- El2, <- Ea, <- Ev.
  destruct (t_up s) eqn:U; rewrite <- Ex.
  - destruct (nth i l fnan <.? _); unfold full, core; cbn [t_up t_af t_uth t_dtl t_val]; auto.
  - destruct (_ <.? nth i h fnan); unfold full, core; cbn [t_up t_af t_uth t_dtl t_val]; auto.
Qed.
End Step.

Lemma nth_skip : forall {B} K (s : list B) r d, nth (K + r) s d = nth r (skipn K s) d.
Proof. induction K; intros [|x s] r d; cbn [skipn Nat.add nth]; auto. now destruct r. Qed.

(** ** the columns *)
Section Runs.
Variables (b b' : bool) (step mx : F) (rows rows' : list (bar F)) (K K' : nat).
Hypothesis Hb : b = false \/ default_index rows.
Hypothesis Hb' : b' = false \/ default_index rows'.
Hypothesis Same : same_bars K rows K' rows'.
Let T := t_at step mx (map b_high rows) (map b_low rows) (map b_close rows).
Let T' := t_at step mx (map b_high rows') (map b_low rows') (map b_close rows').

Lemma same_nth : forall r, nth (K + r) (map b_high rows) fnan = nth (K' + r) (map b_high rows') fnan /\
  nth (K + r) (map b_low rows) fnan = nth (K' + r) (map b_low rows') fnan.
Proof. intros r. destruct Same as [E1 E2]. rewrite !nth_skip, E1, E2. auto. Qed.

(** the traces meet *)
Lemma meet : forall i j, (1 <= i < j)%nat -> (2 <= K + i)%nat -> (2 <= K' + i)%nat ->
  (forall r, (i - 1 <= r <= j)%nat -> t_up (T (K + r)) = t_up (T' (K' + r))) ->
  t_up (T (K + i)) = negb (t_up (T (K + (i - 1)))) -> t_up (T (K + j)) = negb (t_up (T (K + (j - 1)))) ->
  forall r, (j <= r)%nat -> full (T (K + r)) (T' (K' + r)).
Proof.
  intros i j Hij Hi Hi' Sd Ti Tj.
  assert (St : forall r, (i <= r)%nat -> T (K + r) = t_next step mx (map b_high rows) (map b_low rows) (T (K + (r - 1))) (K + r) /\
    T' (K' + r) = t_next step mx (map b_high rows') (map b_low rows') (T' (K' + (r - 1))) (K' + r)).
  { intros r Hr. unfold T, T'. rewrite (t_at_S _ _ _ _ _ (K + r)), (t_at_S _ _ _ _ _ (K' + r)) by lia.
    replace (K + r - 1)%nat with (K + (r - 1))%nat by lia. replace (K' + r - 1)%nat with (K' + (r - 1))%nat by lia. auto. }
  assert (C : forall d, (i + d < j)%nat -> core (T (K + (i + d))) (T' (K' + (i + d)))).
  { induction d; intros Hd.
    - replace (i + 0)%nat with i by lia. destruct (St i ltac:(lia)) as [E E']. destruct (same_nth i) as [Eh El].
      rewrite E, E'. apply first_turn; auto; [apply Sd; lia|rewrite <- E; auto|].
      rewrite <- E', <- Sd by lia. rewrite Ti. f_equal. apply Sd. lia.
    - destruct (St (i + S d)%nat ltac:(lia)) as [E E']. destruct (same_nth (i + S d)) as [Eh El].
      rewrite E, E'. replace (i + S d - 1)%nat with (i + d)%nat in * by lia. apply core_step; auto; [apply IHd; lia|].
      rewrite <- E, <- E'. apply Sd. lia. }
  intros r Hr. replace r with (j + (r - j))%nat by lia. generalize (r - j)%nat. clear r Hr. induction n.
  - replace (j + 0)%nat with j by lia. destruct (St j ltac:(lia)) as [E E']. destruct (same_nth j) as [Eh El].
    rewrite E, E'. specialize (C (j - 1 - i)%nat ltac:(lia)). replace (i + (j - 1 - i))%nat with (j - 1)%nat in C by lia.
    apply next_turn; auto; [rewrite <- E; auto|]. rewrite <- E', <- Sd by lia. rewrite Tj. f_equal. apply Sd. lia.
  - destruct (St (j + S n)%nat ltac:(lia)) as [E E']. destruct (same_nth (j + S n)) as [Eh El].
    destruct (same_nth (j + n)) as [Eh1 El1]. destruct (same_nth (j + n - 1)) as [Eh2 El2].
    rewrite E, E'. replace (j + S n - 1)%nat with (j + n)%nat by lia.
    apply full_step; auto.
    + replace (K + (j + S n) - 1)%nat with (K + (j + n))%nat by lia. replace (K' + (j + S n) - 1)%nat with (K' + (j + n))%nat by lia. auto.
    + replace (K + (j + S n) - 1)%nat with (K + (j + n))%nat by lia. replace (K' + (j + S n) - 1)%nat with (K' + (j + n))%nat by lia. auto.
    + replace (K + (j + S n) - 2)%nat with (K + (j + n - 1))%nat by lia. replace (K' + (j + S n) - 2)%nat with (K' + (j + n - 1))%nat by lia. auto.
    + replace (K + (j + S n) - 2)%nat with (K + (j + n - 1))%nat by lia. replace (K' + (j + S n) - 2)%nat with (K' + (j + n - 1))%nat by lia. auto.
Qed.
End Runs.

(** ** the reversal indicators *)
Lemma indicator_same : forall (up s up' s' : list F) i i', length s = length up -> length s' = length up' ->
  (1 <= i < length up)%nat -> (1 <= i' < length up')%nat -> nth i up fnan = nth i' up' fnan -> nth i s fnan = nth i' s' fnan ->
  fisnan (nth (i - 1) s fnan) = fisnan (nth (i' - 1) s' fnan) -> nth i (psar_indicator up s) fnan = nth i' (psar_indicator up' s') fnan.
Proof.
  assert (N : forall (up s : list F) i, length s = length up -> (1 <= i < length up)%nat -> nth i (psar_indicator up s) fnan =
    let x := if negb (fisnan (nth i s fnan)) && fisnan (nth (i - 1) s fnan) then nth i up fnan else #0 in if x =.? #0 then x else #1).
  { intros up s i E Hi. unfold psar_indicator. cbv zeta.
    assert (L2 : forall (f : F -> F -> bool) (x y : list F), length x = length y -> length (map2 f x y) = length x).
    { intros f. induction x; intros [|z y] H; cbn [map2 length] in *; auto; try discriminate; f_equal; apply IHx; lia. }
    assert (L3 : forall (f : bool -> F -> F) x (y : list F), length x = length y -> length (map2 f x y) = length x).
    { intros f. induction x; intros [|z y] H; cbn [map2 length] in *; auto; try discriminate; f_equal; apply IHx; lia. }
    assert (S1 : length s = length (shift 1 s)) by (now rewrite len_shift).
    assert (S2 : length (map2 (fun x p => negb (fisnan x) && fisnan p) s (shift 1 s)) = length s) by (apply L2; auto).
    rewrite (nth_map_lt _ _ _ _ fnan) by (rewrite L3; lia).
    rewrite (nth_map2 _ _ _ _ false fnan) by lia.
    rewrite (nth_map2 _ _ _ _ fnan fnan) by lia.
    destruct i as [|k]; [lia|]. rewrite (nth_shift1 s k) by lia. replace (S k - 1)%nat with k by lia. reflexivity. }
  intros up s up' s' i i' E E' Hi Hi' E1 E2 E3. rewrite !N by auto. cbv zeta. now rewrite E1, E2, E3.
Qed.

Lemma psar_meet : forall b b' step mx (rows rows' : list (bar F)) K K' ps up dn ps' up' dn',
  b = false \/ default_index rows -> b' = false \/ default_index rows' -> same_bars K rows K' rows' ->
  compute (Psar b step mx) false rows = Ok ps -> compute (PsarUp b step mx) false rows = Ok up -> compute (PsarDown b step mx) false rows = Ok dn ->
  compute (Psar b' step mx) false rows' = Ok ps' -> compute (PsarUp b' step mx) false rows' = Ok up' -> compute (PsarDown b' step mx) false rows' = Ok dn' ->
  forall i j, (1 <= i < j)%nat -> (K + j < length rows)%nat -> turns up dn (K + i) -> turns up dn (K + j) ->
  (forall r, (i - 1 <= r <= j)%nat -> same_side up dn up' dn' (K + r) (K' + r)) ->
  forall r, (j <= r)%nat -> (K + r < length rows)%nat ->
    nth (K + r) ps fnan = nth (K' + r) ps' fnan /\ nth (K + r) up fnan = nth (K' + r) up' fnan /\ nth (K + r) dn fnan = nth (K' + r) dn' fnan /\
    forall ui di ui' di',
      compute (PsarUpInd b step mx) false rows = Ok ui -> compute (PsarDownInd b step mx) false rows = Ok di ->
      compute (PsarUpInd b' step mx) false rows' = Ok ui' -> compute (PsarDownInd b' step mx) false rows' = Ok di' ->
      nth (K + r) ui fnan = nth (K' + r) ui' fnan /\ nth (K + r) di fnan = nth (K' + r) di' fnan.
Proof.
  intros b b' step mx rows rows' K K' ps up dn ps' up' dn' Hb Hb' Same Hp Hu Hd Hp' Hu' Hd' i j Hij Hj Ti Tj Sd r Hr Hlen.
  assert (Len : (length rows - K = length rows' - K')%nat).
  { destruct Same as [E _]. apply (f_equal (@length F)) in E. now rewrite !skipn_length, !map_length in E. }
  destruct (psar_positional F A b step mx false rows Hb) as (E1 & E2 & E3 & E4 & E5).
  destruct (psar_positional F A b' step mx false rows' Hb') as (E1' & E2' & E3' & E4' & E5').
  rewrite E1 in Hp. rewrite E2 in Hu. rewrite E3 in Hd. rewrite E1' in Hp'. rewrite E2' in Hu'. rewrite E3' in Hd'. rewrite E4, E5, E4', E5'. clear E1 E2 E3 E4 E5 E1' E2' E3' E4' E5'.
  destruct (psar_frame F A step mx false rows up dn ps Hp) as (st & Er & F1 & F2 & F3 & F4 & F5).
  destruct (psar_frame F A step mx false rows' up' dn' ps' Hp') as (st' & Er' & F1' & F2' & F3' & F4' & F5').
  rewrite F1 in Hp. rewrite F2 in Hu. rewrite F3 in Hd. rewrite F1' in Hp'. rewrite F2' in Hu'. rewrite F3' in Hd'. rewrite F4, F5, F4', F5'. clear F1 F2 F3 F4 F5 F1' F2' F3' F4' F5'.
  cbn [check_fillna] in *. apply ok_inj in Hp, Hu, Hd, Hp', Hu', Hd'. subst ps up dn ps' up' dn'.
  apply psar_trace in Er; [|now rewrite !map_length]. apply psar_trace in Er'; [|now rewrite !map_length]. rewrite map_length in Er, Er'.
  destruct Er as (L1 & L2 & L3 & R). destruct Er' as (L1' & L2' & L3' & R').
  set (T := t_at step mx (map b_high rows) (map b_low rows) (map b_close rows)) in *.
  set (T' := t_at step mx (map b_high rows') (map b_low rows') (map b_close rows')) in *.
  assert (Side : forall r, (i - 1 <= r <= j)%nat -> (2 <= K + r)%nat /\ (2 <= K' + r)%nat /\ t_up (T (K + r)%nat) = t_up (T' (K' + r)%nat)).
  { intros q Hq. destruct (Sd q Hq) as [[S1 S2]|[S1 S2]]; unfold stop_on in S1, S2;
      destruct (R (K + q)%nat ltac:(lia)) as (_ & Ru & Rd); destruct (R' (K' + q)%nat ltac:(lia)) as (_ & Ru' & Rd').
    - rewrite Ru in S1. rewrite Ru' in S2. apply up_at in S1, S2. destruct S1 as [? ->], S2 as [? ->]. auto.
    - rewrite Rd in S1. rewrite Rd' in S2. apply dn_at in S1, S2. destruct S1 as [? ->], S2 as [? ->]. auto. }
  assert (Turn : forall q, (i <= q <= j)%nat -> turns (ps_up st) (ps_down st) (K + q) -> t_up (T (K + q)%nat) = negb (t_up (T (K + (q - 1))%nat))).
  { intros q Hq Tq. unfold turns, stop_on in Tq. replace (K + q - 1)%nat with (K + (q - 1))%nat in Tq by lia.
    destruct (R (K + q)%nat ltac:(lia)) as (_ & Ru & Rd); destruct (R (K + (q - 1))%nat ltac:(lia)) as (_ & Ru' & Rd').
    rewrite Ru, Rd, Ru', Rd' in Tq. destruct Tq as [[S1 S2]|[S1 S2]].
    - apply up_at in S1. apply dn_at in S2. destruct S1 as [_ ->], S2 as [_ ->]. auto.
    - apply dn_at in S1. apply up_at in S2. destruct S1 as [_ ->], S2 as [_ ->]. auto. }
  assert (M : forall q, (j <= q)%nat -> full (T (K + q)%nat) (T' (K' + q)%nat)).
  { apply (meet step mx rows rows' K K' Same i j Hij); try (apply Side; lia); try (apply Turn; auto; lia). }
  assert (Up : forall q, (j - 1 <= q)%nat -> t_up (T (K + q)%nat) = t_up (T' (K' + q)%nat)).
  { intros q Hq. destruct (Nat.le_gt_cases j q) as [G|G]; [apply (M q G)|apply Side; lia]. }
  assert (J : (2 <= K + r)%nat /\ (2 <= K' + r)%nat) by (destruct (Side j ltac:(lia)) as (? & ? & _); lia).
  assert (J1 : (2 <= K + r - 1)%nat /\ (2 <= K' + r - 1)%nat) by (destruct (Side (j - 1)%nat ltac:(lia)) as (? & ? & _); lia).
  destruct (R (K + r)%nat ltac:(lia)) as (Rp & Ru & Rd). destruct (R' (K' + r)%nat ltac:(lia)) as (Rp' & Ru' & Rd').
  assert (Ev : t_val (T (K + r)%nat) = t_val (T' (K' + r)%nat)) by apply (M r Hr).
  assert (Eu : nth (K + r) (ps_up st) fnan = nth (K' + r) (ps_up st') fnan).
  { rewrite Ru, Ru', Ev, (Up r ltac:(lia)). destruct (Nat.ltb_spec (K + r) 2), (Nat.ltb_spec (K' + r) 2); try lia. auto. }
  assert (Ed : nth (K + r) (ps_down st) fnan = nth (K' + r) (ps_down st') fnan).
  { rewrite Rd, Rd', Ev, (Up r ltac:(lia)). destruct (Nat.ltb_spec (K + r) 2), (Nat.ltb_spec (K' + r) 2); try lia. auto. }
  split; [congruence|]. split; [auto|]. split; [auto|].
  assert (Pv : fisnan (nth (K + r - 1) (ps_up st) fnan) = fisnan (nth (K' + r - 1) (ps_up st') fnan) /\
    fisnan (nth (K + r - 1) (ps_down st) fnan) = fisnan (nth (K' + r - 1) (ps_down st') fnan)).
  { replace (K + r - 1)%nat with (K + (r - 1))%nat by lia. replace (K' + r - 1)%nat with (K' + (r - 1))%nat by lia.
    destruct (Nat.le_gt_cases j (r - 1)) as [G|G].
    - destruct (R (K + (r - 1))%nat ltac:(lia)) as (_ & Qu & Qd). destruct (R' (K' + (r - 1))%nat ltac:(lia)) as (_ & Qu' & Qd').
      assert (Ev1 : t_val (T (K + (r - 1))%nat) = t_val (T' (K' + (r - 1))%nat)) by apply (M _ G).
      rewrite Qu, Qu', Qd, Qd', Ev1, (Up (r - 1)%nat ltac:(lia)).
      destruct (Nat.ltb_spec (K + (r - 1)) 2), (Nat.ltb_spec (K' + (r - 1)) 2); try lia. auto.
    - replace (r - 1)%nat with (j - 1)%nat by lia. unfold same_side, stop_on in Sd.
      destruct (R (K + (j - 1))%nat ltac:(lia)) as (_ & Qu & Qd). destruct (R' (K' + (j - 1))%nat ltac:(lia)) as (_ & Qu' & Qd').
      pose proof (Sd (j - 1)%nat ltac:(lia)) as Sj. rewrite Qu, Qu', Qd, Qd' in *.
      destruct (Nat.ltb_spec (K + (j - 1)) 2), (Nat.ltb_spec (K' + (j - 1)) 2); try lia.
      rewrite <- (Up (j - 1)%nat ltac:(lia)) in *. destruct (t_up (T (K + (j - 1))%nat)); rewrite !isnan_nan in *; destruct Sj as [[X Y]|[X Y]]; try discriminate; rewrite X, Y; auto. }
  intros ui di ui' di' G1 G2 G3 G4. apply ok_inj in G1, G2, G3, G4. subst ui di ui' di'.
  split; apply indicator_same; try apply Pv; auto; try congruence; try lia.
Qed.
End Gen.

(** ** a flat market: the stop changes sides on every row, so a history that
    starts one row later is always on the other side *)
Section Flat.
Local Open Scope R_scope.
Lemma flat_sar : forall step mx hi lo c, 0 < step <= 1 -> lo < hi -> lo <= c <= hi -> forall i, (2 <= i)%nat ->
  let s := sar_at step mx (fun _ => hi) (fun _ => lo) (fun _ => c) i in
  sar_af s = step /\ sar_high s = hi /\ sar_low s = lo /\ sar_up s = Nat.odd i /\ sar_val s = if Nat.odd i then lo else hi.
Proof.
  intros step mx hi lo c Hs Hlh Hc. cbv zeta. assert (P : 0 < step * (hi - lo)) by (apply Rmult_lt_0_compat; lra).
  assert (Q : 0 <= step * (hi - c)) by (apply Rmult_le_pos; lra).
  induction i as [|i IH]; intros Hi; [lia|]. destruct (Nat.eq_dec i 1) as [->|Hne].
  - cbn [sar_at]. unfold sar_next, sar_move. cbn [sar_up sar_val sar_af sar_high sar_low].
    destruct (Rlt_dec lo _) as [G|G]; [cbn; auto|]. exfalso. apply G.
    destruct (Req_EM_T c lo) as [->|N]; [lra|]. lra.
  - specialize (IH ltac:(lia)).
    assert (E : sar_at step mx (fun _ => hi) (fun _ => lo) (fun _ => c) (S i) =
      sar_next step mx (fun _ => hi) (fun _ => lo) (sar_at step mx (fun _ => hi) (fun _ => lo) (fun _ => c) i) (S i)).
    { destruct i as [|i]; [lia|]. reflexivity. }
    rewrite E. destruct IH as (E1 & E2 & E3 & E4 & E5). rewrite Nat.odd_succ, <- Nat.negb_odd.
    unfold sar_next, sar_move. rewrite E1, E2, E3, E4, E5. destruct (Nat.odd i); cbn [negb].
    + destruct (Rlt_dec lo _) as [G|G]; [cbn; auto|lra].
    + destruct (Rlt_dec _ hi) as [G|G]; [cbn; auto|lra].
Qed.
Lemma flat_market : forall b step mx n hi lo c v, 0 < step <= 1 -> lo < hi -> lo <= c <= hi -> (1 <= n)%nat ->
  let market m := frame m (fun _ => hi) (fun _ => lo) (fun _ => c) v in
  same_bars 1 (market (S n)) 0 (market n) /\
  exists out out', compute (Psar b (Fin step) (Fin mx)) false (market (S n)) = Ok out /\
    compute (Psar b (Fin step) (Fin mx)) false (market n) = Ok out' /\
    forall r, (2 <= r < n)%nat -> nth (1 + r) out NaN <> nth r out' NaN.
Proof.
  intros b step mx n hi lo c v Hs Hlh Hc Hn market.
  destruct (psar_formula b step mx (S n) (fun _ => hi) (fun _ => lo) (fun _ => c) v ltac:(lia)) as (E1 & _).
  destruct (psar_formula b step mx n (fun _ => hi) (fun _ => lo) (fun _ => c) v ltac:(lia)) as (E2 & _).
  split.
  - unfold same_bars, market. rewrite !high_tab, !low_tab. split; unfold tab; cbn [seq map skipn]; rewrite <- seq_shift, map_map; reflexivity.
  - do 2 eexists. split; [exact E1|]. split; [exact E2|]. intros r Hr. rewrite !nth_tab by lia.
    destruct (flat_sar step mx hi lo c Hs Hlh Hc (1 + r) ltac:(lia)) as (_ & _ & _ & _ & ->).
    destruct (flat_sar step mx hi lo c Hs Hlh Hc r ltac:(lia)) as (_ & _ & _ & _ & ->).
    rewrite Nat.odd_succ, <- Nat.negb_odd. destruct (Nat.odd r); cbn [negb]; intros X; injection X; lra.
Qed.
End Flat.
