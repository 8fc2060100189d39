(** * P_Names: property C72 (the names of the returned series). *)
From Coq Require Import String.
From Verif Require Import Api Names SpecNames NamesFacts.
Local Open Scope string_scope.

(** C72. Apart from three series of the Keltner channel, two series with the
    same name come from the same method, and agree on the windows the name
    spells out. *)
Theorem C72_name_identifies_series : forall F (i j : indicator F),
  borrows_name i = false -> borrows_name j = false -> series_name i = series_name j ->
  method i = method j /\ named_windows i = named_windows j.
Proof. exact @name_identifies. Qed.
Print Assumptions C72_name_identifies_series.

Example C72_applies :
  borrows_name (Macd 26 12 9 : indicator nat) = false /\ borrows_name (Macd 26 12 5 : indicator nat) = false /\
  series_name (Macd 26 12 9 : indicator nat) = "MACD_12_26" /\
  series_name (Macd 26 12 5 : indicator nat) = "MACD_12_26" /\
  series_name (Dpo (-5) : indicator nat) = "dpo_-5" /\
  series_name (SmaEom 14 : indicator nat) = "sma_eom_14".
Proof. repeat split. Qed.

(** The Keltner middle band, width and percentage carry the names of the
    Bollinger ones, whatever the arguments: a name does not identify them. *)
Theorem C72_keltner_names_refuted : forall F w a o (m : F) w' (d : F),
  (series_name (KcM w a o m) = series_name (BbM w' d) /\ method (KcM w a o m) <> method (BbM w' d)) /\
  (series_name (KcW w a o m) = series_name (BbW w' d) /\ method (KcW w a o m) <> method (BbW w' d)) /\
  (series_name (KcP w a o m) = series_name (BbP w' d) /\ method (KcP w a o m) <> method (BbP w' d)).
Proof. repeat split; discriminate. Qed.
Print Assumptions C72_keltner_names_refuted.
