(** * P_Objects: property C101 (histories of one indicator object). *)
From Coq Require Import Floats.
From Verif Require Import FloatArith Lists Api Objects SpecObjects ObjectProofs ObjectCases.

(** C101.  Keep one indicator object and call its methods any number of times in
    any order, write into the series they returned, change the columns that were
    passed in: an output is still the series of the original columns unless a
    write went into a series it is worked out from, or it looks at the columns
    when it is asked for and they were changed. *)
Theorem C101_histories : forall F (A : Arith F) obj fillna rows w ops a,
  create obj fillna rows = Ok w -> on_object obj ops -> object_of a = object_of obj ->
  undisturbed fillna ops a -> (late fillna a = false \/ columns_kept ops) ->
  reply fillna (after fillna w ops) a = compute a fillna rows.
Proof. exact @replies_kept. Qed.
Print Assumptions C101_histories.
(** With fillna=True no write into a returned series ever shows up anywhere else:
    not in an output, not in the columns, not in another returned series. *)
Theorem C101_filled_histories : forall F (A : Arith F) obj rows w ops a,
  create obj true rows = Ok w -> on_object obj ops -> object_of a = object_of obj -> columns_kept ops ->
  reply true (after true w ops) a = compute a true rows /\ w_rows (after true w ops) = rows.
Proof.
  intros F A obj rows w ops a C O S K. split.
  - apply (replies_kept obj true rows w ops a C O S); [intros k i x b _ _ (H & _); discriminate H | right; exact K].
  - rewrite rows_kept by exact K. exact (proj1 (proj2 (create_ok _ _ _ _ C))).
Qed.
Print Assumptions C101_filled_histories.
(** A series the caller holds changes only by writing: into it with fillna=True. *)
Theorem C101_returned_series_stay : forall F (A : Arith F) obj fillna rows w ops ops' k s,
  create obj fillna rows = Ok w -> seen (after fillna w ops) k = Some s ->
  no_writes ops' \/ (fillna = true /\ not_written k ops') ->
  seen (after fillna w (ops ++ ops')) k = Some s.
Proof.
  intros F A obj fillna rows w ops ops' k s C E N.
  exact (returned_stay fillna w ops ops' k s (proj2 (proj2 (create_ok _ _ _ _ C))) E N).
Qed.
Print Assumptions C101_returned_series_stay.
(** If the constructor raises, so does every output, with the same exception. *)
Theorem C101_constructor_raises : forall F (A : Arith F) obj fillna rows e, create obj fillna rows = Raise e ->
  forall a, object_of a = object_of obj -> compute a fillna rows = Raise e.
Proof. exact @constructor_raises. Qed.
Print Assumptions C101_constructor_raises.
(** EMA, SMA and the Ichimoku span B always show the columns as they are now. *)
Theorem C101_moving_columns : forall F (A : Arith F) obj fillna rows w ops a,
  create obj fillna rows = Ok w -> object_of a = object_of obj -> only_columns a = true ->
  reply fillna (after fillna w ops) a = compute a fillna (w_rows (after fillna w ops)).
Proof. exact @late_replies. Qed.
Print Assumptions C101_moving_columns.

(** Without fillna the caller can break the object: what is written into a kept
    series is what the object shows from then on ... *)
Theorem C101_kept_series_refuted : forall F (A : Arith F) a rows w i x out,
  create a false rows = Ok w -> fresh a = false -> compute a false rows = Ok out ->
  reply false (after false w [Ask a; Write 0 i x]) a = Ok (upd i x out).
Proof. exact @live_reply. Qed.
Print Assumptions C101_kept_series_refuted.
(** ... it also shows in the outputs worked out from it, ... *)
Theorem C101_fed_series_refuted : Forall write_shows write_cases.
Proof. exact write_cases_show. Qed.
Print Assumptions C101_fed_series_refuted.
(** ... and an output that looks at the columns late mixes old and new ones. *)
Theorem C101_mixed_columns_refuted : Forall mixes mixed_cases.
Proof. exact mixed_cases_mix. Qed.
Print Assumptions C101_mixed_columns_refuted.

(** The hypotheses are met: a MACD object, of which the caller overwrote the MACD
    line, still shows the right histogram; a Bollinger object does not show the
    right width after its upper band was overwritten, but the right middle band. *)
Definition macd_history : list (op float) := [Ask (Macd 3 2 2); Ask (MacdDiff 3 2 2); Write 0 5 1%float; Ask (MacdSignal 3 2 2)].
Example macd_histogram_survives :
  on_object (Macd 3 2 2) macd_history /\ undisturbed false macd_history (MacdDiff 3 2 2) /\ columns_kept macd_history /\
  (exists w, create (Macd 3 2 2) false days = Ok w).
Proof.
  split; [repeat constructor|]. split; [|split; [|eexists; vm_compute; reflexivity]].
  - intros k i x b I N (_ & _ & D). cbn [macd_history In] in I.
    destruct I as [I|[I|[I|[I|[]]]]]; try discriminate I. injection I as <- <- <-. injection N as <-.
    destruct D as [D|D]; discriminate D.
  - intros i r I. cbn [macd_history In] in I. destruct I as [I|[I|[I|[I|[]]]]]; discriminate I.
Qed.
Example bollinger_middle_survives : undisturbed false [Ask (BbH 2 2%float); Write 0 5 1%float] (BbM 2 2%float) /\
  disturbs false (BbH 2 2%float) (BbW 2 2%float).
Proof.
  split; [|repeat split; auto]. intros k i x b I N (_ & _ & D). cbn [In] in I.
  destruct I as [I|[I|[]]]; [discriminate I|]. injection I as <- <- <-. injection N as <-. destruct D as [D|D]; discriminate D.
Qed.
