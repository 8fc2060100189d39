(** * EwmGaps: the EMA over missing rows (C14). *)
From Verif Require Import Lists Api SpecNum Rows Fill Tab Averages.
Local Open Scope R_scope.

Definition before (a : R) x (s : nat) : option (R * nat) :=
  match s with O => None | S j => gap_ema a x j end.
Definition present_before x (s : nat) : nat := match s with O => O | S j => present x j end.
Definition st_avg (p : option (R * nat)) : xr := match p with Some (e, _) => Fin e | None => NaN end.
Definition st_ow (a : R) (p : option (R * nat)) : xr :=
  match p with Some (_, g) => Fin ((1 - a) ^ g) | None => Fin 1 end.

Lemma ewm_gaps : forall a m x, 0 < a <= 1 -> forall n s,
  ewm_go (Fin a) m (present_before x s) (st_avg (before a x s)) (st_ow a (before a x s))
         (map (series_of x) (seq s n)) =
  map (fun i => if (m <=? present x i)%nat then st_avg (gap_ema a x i) else NaN) (seq s n).
Proof.
  intros a m x Ha. induction n; intros s; [reflexivity|]. cbn [seq map]. specialize (IHn (S s)).
  change (before a x (S s)) with (gap_ema a x s) in IHn.
  change (present_before x (S s)) with (present x s) in IHn.
  assert (EP : present x s = (match x s with Some _ => 1 | None => 0 end + present_before x s)%nat) by (destruct s; reflexivity).
  assert (EG : gap_ema a x s = match before a x s, x s with
    | None, None => None
    | None, Some r => Some (r, O)
    | Some (e, g), None => Some (e, S g)
    | Some (e, g), Some r => Some (((1 - a) ^ S g * e + a * r) / ((1 - a) ^ S g + a), O)
    end) by (destruct s; reflexivity).
  unfold series_of at 1. destruct (x s) as [r|] eqn:Ex; cbn [ewm_go]; cbn [fisnan XR xisnan negb].
  - destruct (before a x s) as [[e g]|]; cbn [st_avg st_ow fisnan XR xisnan negb].
    + assert (E : (if Fin e =.? Fin r then Fin e
               else ((Fin ((1 - a) ^ g) **. (#1 -. Fin a)) **. Fin e +. Fin a **. Fin r) /.
                    ((Fin ((1 - a) ^ g) **. (#1 -. Fin a)) +. Fin a))%F = st_avg (gap_ema a x s)).
      { rewrite EG. cbn [st_avg].
        assert (P : 0 <= (1 - a) ^ S g) by (apply pow_le; lra).
        assert (Q : (1 - a) ^ g * (1 + - a) = (1 - a) ^ S g) by (cbn; ring).
        cbn [fmul fsub fadd fdiv feqb XR xmul xsub xadd xopp fofZ xeqb]. rewrite Q.
        destruct (Req_EM_T e r) as [->|]; [f_equal; field; lra|].
        rewrite xdiv_fin by lra. reflexivity. }
      rewrite E. f_equal; [now rewrite EP|].
      rewrite <- IHn. rewrite EP, EG. reflexivity.
    + f_equal; [now rewrite EP, EG|]. rewrite <- IHn, EP, EG. reflexivity.
  - destruct (before a x s) as [[e g]|]; cbn [st_avg st_ow fisnan XR xisnan negb].
    + f_equal; [now rewrite EP, EG|]. rewrite <- IHn, EP, EG. cbn [st_avg st_ow Nat.add].
      do 2 f_equal. cbn. f_equal. ring.
    + f_equal; [now rewrite EP, EG|]. rewrite <- IHn, EP, EG. reflexivity.
Qed.

Lemma ema_gap_formula : forall fl w n x rows, (1 <= w)%nat -> map b_close rows = tab n (series_of x) ->
  compute (Ema (Z.of_nat w)) fl rows =
  Ok (tab n (fun i => if (present x i <? (if fl then 1 else w))%nat then NaN
                      else match gap_ema (2 / (INR w + 1)) x i with Some (e, _) => Fin e | None => NaN end)).
Proof.
  intros fl w n x rows Hw E. cbn [compute]. rewrite E. unfold ema_indicator, ema_, ewm_span.
  destruct (Z.ltb_spec (Z.of_nat w) 1); [lia|]. f_equal. unfold ewm_com.
  assert (P : prep (tab n (series_of x)) = tab n (series_of x)).
  { rewrite prep_tab. apply tab_ext. intros. unfold series_of. now destruct (x i). }
  rewrite P. assert (1 <= INR w) by (apply (le_INR 1); lia).
  replace (#1 /. (#1 +. (fofZ (Z.of_nat w) -. #1) /. #2))%F with (Fin (2 / (INR w + 1))).
  2:{ cbn. rewrite <- INR_IZR_INZ. destruct (Req_EM_T 2 0); [lra|]. cbn.
      destruct (Req_EM_T _ 0) as [Hz|Hz]; [exfalso; lra|]. f_equal. field. lra. }
  unfold tab. rewrite (ewm_gaps _ _ x (span_range w Hw) n 0). apply map_ext. intros i.
  destruct fl.
  - replace (Z.to_nat (Z.max 0 1)) with 1%nat by reflexivity.
    destruct (Nat.leb_spec 1 (present x i)), (Nat.ltb_spec (present x i) 1); try lia; auto.
  - replace (Z.to_nat (Z.max (Z.of_nat w) 1)) with w by lia.
    destruct (Nat.leb_spec w (present x i)), (Nat.ltb_spec (present x i) w); try lia; auto.
Qed.
