(** * ObjectCases: histories where one output shows a write into another (C101). *)
From Coq Require Import Floats.
From Verif Require Import FloatArith Lists Api Objects SpecObjects.

Definition day (h l c v : float) : bar float :=
  {| b_label := 0%Z; b_high := h; b_low := l; b_close := c; b_volume := v |}.
Definition days : list (bar float) :=
  [ day 11 9 10 100; day 12 10 11 120; day 14 11 13 90; day 13 10 11 150; day 11 8 9 80;
    day 10 7 8 130; day 13 9 12 110; day 15 12 14 70; day 14 11 12 95; day 12 9 10 105 ]%float.

(** Two series differ in a row where both show a number. *)
Definition differ (s t : list float) : Prop :=
  exists j, (nth j s nan =? nth j s nan)%float = true /\ (nth j t nan =? nth j t nan)%float = true /\
            (nth j s nan =? nth j t nan)%float = false.
Definition differb (s t : list float) : bool :=
  existsb (fun j => (nth j s nan =? nth j s nan)%float && (nth j t nan =? nth j t nan)%float &&
                    negb (nth j s nan =? nth j t nan)%float) (seq 0 (length s)).
Lemma differb_ok : forall s t, differb s t = true -> differ s t.
Proof.
  intros s t H. apply existsb_exists in H as (j & _ & H). apply andb_prop in H as [H N]. apply andb_prop in H as [P Q].
  exists j. repeat split; auto. apply negb_true_iff. exact N.
Qed.

(** Ask for [b], write [x] into row [i] of it, ask for [a]. *)
Definition write_shows (p : indicator float * indicator float * nat * float) : Prop :=
  let '(b, a, i, x) := p in
  feeds b a = true /\ object_of b = object_of a /\
  exists w s t, create b false days = Ok w /\ compute a false days = Ok s /\
    reply false (after false w [Ask b; Write 0 i x]) a = Ok t /\ differ s t.
Definition write_shows_b (p : indicator float * indicator float * nat * float) : bool :=
  let '(b, a, i, x) := p in
  match create b false days with
  | Ok w => match compute a false days, reply false (after false w [Ask b; Write 0 i x]) a with
            | Ok s, Ok t => differb s t
            | _, _ => false
            end
  | Raise _ => false
  end.
Lemma write_shows_ok : forall p, (let '(b, a, _, _) := p in feeds b a = true /\ object_of b = object_of a) ->
  write_shows_b p = true -> write_shows p.
Proof.
  intros [[[b a] i] x] [Fd O] H. unfold write_shows_b in H. split; [exact Fd|]. split; [exact O|].
  destruct (create b false days) as [w|]; [|discriminate]. destruct (compute a false days) as [s|]; [|discriminate].
  destruct (reply false _ a) as [t|] eqn:E; [|discriminate]. exists w, s, t. repeat split; auto. apply differb_ok, H.
Qed.

(** One case for every line of [SpecObjects.feeds]. *)
Definition write_cases : list (indicator float * indicator float * nat * float) :=
 [ (Stoch 3 2, StochSignal 3 2, 7%nat, 1); (StochRsiK 2 2 2, StochRsiD 2 2 2, 7%nat, 2);
   (AroonUp 3, AroonInd 3, 7%nat, 1); (AroonDown 3, AroonInd 3, 7%nat, 1);
   (IchiConv 1 2 3 false, IchiA 1 2 3 false, 7%nat, 1); (IchiBase 1 2 3 false, IchiA 1 2 3 false, 7%nat, 1);
   (Kst 1 1 1 1 1 1 1 1 2, KstDiff 1 1 1 1 1 1 1 1 2, 7%nat, 1);
   (KstSig 1 1 1 1 1 1 1 1 2, KstDiff 1 1 1 1 1 1 1 1 2, 7%nat, 1);
   (VortexPos 2, VortexDiff 2, 7%nat, 1); (VortexNeg 2, VortexDiff 2, 7%nat, 1);
   (PsarUp false 0.015625 0.25, PsarUpInd false 0.015625 0.25, 5%nat, 1);
   (PsarUp false 0.015625 0.25, PsarDownInd false 0.015625 0.25, 4%nat, 0);
   (PsarDown false 0.015625 0.25, PsarDownInd false 0.015625 0.25, 8%nat, 1);
   (BbM 2 2, BbW 2 2, 7%nat, 1);
   (BbH 2 2, BbW 2 2, 7%nat, 1); (BbH 2 2, BbP 2 2, 7%nat, 1); (BbH 2 2, BbHI 2 2, 7%nat, 1);
   (BbL 2 2, BbW 2 2, 7%nat, 1); (BbL 2 2, BbP 2 2, 7%nat, 1); (BbL 2 2, BbLI 2 2, 7%nat, 20);
   (KcM 2 2 true 2, KcW 2 2 true 2, 7%nat, 1);
   (KcH 2 2 true 2, KcW 2 2 true 2, 7%nat, 1); (KcH 2 2 true 2, KcP 2 2 true 2, 7%nat, 1);
   (KcH 2 2 true 2, KcHI 2 2 true 2, 7%nat, 1);
   (KcL 2 2 true 2, KcW 2 2 true 2, 7%nat, 1); (KcL 2 2 true 2, KcP 2 2 true 2, 7%nat, 1);
   (KcL 2 2 true 2, KcLI 2 2 true 2, 7%nat, 20);
   (DcH 2 0, DcM 2 0, 7%nat, 1); (DcH 2 0, DcW 2 0, 7%nat, 1); (DcH 2 0, DcP 2 0, 7%nat, 1);
   (DcL 2 0, DcM 2 0, 7%nat, 1); (DcL 2 0, DcW 2 0, 7%nat, 1); (DcL 2 0, DcP 2 0, 7%nat, 1);
   (Eom 2, SmaEom 2, 7%nat, 1) ]%float.
Lemma write_cases_show : Forall write_shows write_cases.
Proof.
  unfold write_cases. repeat (apply Forall_cons; [apply write_shows_ok; [split; reflexivity | vm_compute; reflexivity]|]). apply Forall_nil.
Qed.

(** Change row [i] of the columns after construction, ask for [a]: it shows
    neither the series of the old columns nor the series of the new ones. *)
Definition mixes (p : indicator float * nat * bar float) : Prop :=
  let '(a, i, r) := p in
  exists w s t u, create a false days = Ok w /\ compute a false days = Ok s /\
    compute a false (upd i r days) = Ok t /\ reply false (after false w [Change i r]) a = Ok u /\
    differ u s /\ differ u t.
Definition mixes_b (p : indicator float * nat * bar float) : bool :=
  let '(a, i, r) := p in
  match create a false days with
  | Ok w => match compute a false days, compute a false (upd i r days), reply false (after false w [Change i r]) a with
            | Ok s, Ok t, Ok u => differb u s && differb u t
            | _, _, _ => false
            end
  | Raise _ => false
  end.
Lemma mixes_ok : forall p, mixes_b p = true -> mixes p.
Proof.
  intros [[a i] r] H. unfold mixes_b in H. unfold mixes.
  destruct (create a false days) as [w|]; [|discriminate]. destruct (compute a false days) as [s|]; [|discriminate].
  destruct (compute a false (upd i r days)) as [t|]; [|discriminate].
  destruct (reply false _ a) as [u|] eqn:E; [|discriminate]. apply andb_prop in H as [P Q].
  exists w, s, t, u. repeat split; auto; apply differb_ok; assumption.
Qed.
Definition mixed_cases : list (indicator float * nat * bar float) :=
 [ (BbP 2 2, 7%nat, day 30 20 30 70); (BbHI 2 2, 7%nat, day 30 20 30 70); (BbLI 2 2, 7%nat, day 2 1 1 70);
   (KcP 2 2 true 2, 7%nat, day 30 20 30 70); (KcHI 2 2 true 2, 7%nat, day 100 30 35 70);
   (KcLI 2 2 true 2, 7%nat, day 30 2 3 70); (DcW 2 0, 7%nat, day 30 20 30 70); (DcP 2 0, 7%nat, day 30 20 30 70) ]%float.
Lemma mixed_cases_mix : Forall mixes mixed_cases.
Proof.
  unfold mixed_cases. repeat (apply Forall_cons; [apply mixes_ok; vm_compute; reflexivity|]). apply Forall_nil.
Qed.
