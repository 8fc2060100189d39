(** * SpecApart: columns with their own indexes (C102). *)
From Coq Require Import Sorting.Sorted.
From Verif Require Export Apart SpecCausal.

Section Spec.
Context {F : Type} {A : Arith F}.

(** the labels of a column increase strictly *)
Definition ascending (a : column F) : Prop := StronglySorted Z.lt (labels a).
Definition all_ascending (k : columns F) : Prop :=
  ascending (c_high k) /\ ascending (c_low k) /\ ascending (c_close k) /\ ascending (c_volume k).

(** the four columns of one table *)
Definition together (rows : list (bar F)) : columns F :=
  {| c_high := map (fun r => (b_label r, b_high r)) rows; c_low := map (fun r => (b_label r, b_low r)) rows;
     c_close := map (fun r => (b_label r, b_close r)) rows; c_volume := map (fun r => (b_label r, b_volume r)) rows |}.

(** the columns whose rows decide the rows of the result *)
Inductive col := High | Low | Close | Volume.
Definition pick (k : columns F) (x : col) : column F :=
  match x with High => c_high k | Low => c_low k | Close => c_close k | Volume => c_volume k end.
Definition index_from (ind : indicator F) : list col :=
  match ind with
  | AroonUp _ | DcH _ _ => [High]
  | AroonDown _ | DcL _ _ => [Low]
  | AwesomeOsc _ _ | AroonInd _ | Mass _ _ | IchiConv _ _ _ _ | IchiBase _ _ _ _ | IchiA _ _ _ _ | IchiB _ _ _ _ | DcM _ _ => [High; Low]
  | UltOsc _ _ _ _ _ _ | Stoch _ _ | StochSignal _ _ | WilliamsR _ | Cci _ _ | VortexPos _ | VortexNeg _ | VortexDiff _ | Atr _
  | KcH _ _ _ _ | KcL _ _ _ _ | KcW _ _ _ _ | KcP _ _ _ _ | KcHI _ _ _ _ | KcLI _ _ _ _ | DcW _ _ | DcP _ _ => [High; Low; Close]
  | KcM _ _ original _ => if original then [High; Low; Close] else [Close]
  | Adi | Cmf _ | Mfi _ | Vwap _ => [High; Low; Close; Volume]
  | Eom _ | SmaEom _ => [High; Low; Volume]
  | Fi _ | Vpt _ _ => [Close; Volume]
  | Pvo _ _ _ | PvoSignal _ _ _ | PvoHist _ _ _ => [Volume]
  | _ => [Close]
  end.

(** series whose value at a label is missing as soon as one of their columns
    has no row there (arguments for which that holds) *)
Definition strict (ind : indicator F) : bool :=
  match ind with
  | Stoch _ _ | WilliamsR _ | AroonInd _ | IchiConv _ _ _ _ | IchiBase _ _ _ _ | Cci _ _ | Eom _ => true
  | StochSignal _ w | AwesomeOsc w _ | SmaEom w | Vwap w | Mfi w => (1 <=? w)%Z
  | IchiA _ _ _ visual | IchiB _ _ _ visual => negb visual
  | KcM w _ original _ | KcW w _ original _ => original && (1 <=? w)%Z
  | DcM _ o | DcW _ o | DcP _ o => (o =? 0)%Z
  | Vpt s dropnans => negb dropnans && match s with None => true | Some w => (0 <=? w)%Z end
  | _ => false
  end.

(** the rows known at label [t] *)
Definition upto (t : Z) (a : column F) : column F := filter (fun r => (fst r <=? t)%Z) a.
Definition known_at (t : Z) (k : columns F) : columns F :=
  {| c_high := upto t (c_high k); c_low := upto t (c_low k); c_close := upto t (c_close k); c_volume := upto t (c_volume k) |}.
(** series that take several columns and match their rows by label only *)
Definition by_label (ind : indicator F) : bool :=
  match ind with
  | UltOsc _ _ _ _ _ _ | Stoch _ _ | StochSignal _ _ | AwesomeOsc _ _ | WilliamsR _ | AroonUp _ | AroonDown _ | AroonInd _ | Mass _ _
  | IchiConv _ _ _ _ | IchiBase _ _ _ _ | Cci _ _ | Adi | Cmf _ | Fi _ | Eom _ | SmaEom _ | Vwap _ => true
  | IchiA _ _ _ visual | IchiB _ _ _ visual => negb visual
  | KcM _ _ original _ | KcH _ _ original _ | KcL _ _ original _ | KcW _ _ original _ | KcP _ _ original _
  | KcHI _ _ original _ | KcLI _ _ original _ => original
  | DcH _ o | DcL _ o | DcM _ o | DcW _ o | DcP _ o => (0 <=? o)%Z
  | Vpt _ dropnans => negb dropnans
  | _ => false
  end.
(** a run on the rows known at [t] returns the rows up to [t] of the full run *)
Definition no_later_row (f : columns F -> result (column F)) : Prop :=
  forall k t out, all_ascending k -> f k = Ok out -> f (known_at t k) = Ok (upto t out).


(** the frame obtained by an outer join on the labels [ls] *)
Definition joined (ls : list Z) (k : columns F) : list (bar F) :=
  map (fun t => mkbar t (row (c_high k) t) (row (c_low k) t) (row (c_close k) t) (row (c_volume k) t)) ls.
(** series that see only sums of their columns *)
Definition joins_first (ind : indicator F) : bool :=
  match ind with
  | AwesomeOsc _ _ | Mass _ _ | Cci _ _ => true
  | KcM _ _ original _ | KcH _ _ original _ | KcL _ _ original _ | KcW _ _ original _ | KcP _ _ original _ => original
  | _ => false
  end.

(** series that match rows by position and label them by the close *)
Definition by_position (ind : indicator F) : bool :=
  match ind with
  | Adx _ | AdxPos _ | AdxNeg _ | Obv | Nvi | Psar _ _ _ | PsarUp _ _ _ | PsarDown _ _ _ | PsarUpInd _ _ _ | PsarDownInd _ _ _ => true
  | _ => false
  end.

(** some row of the columns [xs] has a label none of the columns [ys] has *)
Definition outside (k : columns F) (xs ys : list col) : Prop :=
  exists x t, In x xs /\ In t (labels (pick k x)) /\ forall y, In y ys -> ~ In t (labels (pick k y)).
(** the rows of the first columns must all be rows of the second *)
Definition must_cover (ind : indicator F) : option (list col * list col) :=
  match ind with
  | Atr _ | KcHI _ _ _ _ | KcLI _ _ _ _ => Some ([High; Low], [Close])
  | KcM _ _ original _ | KcH _ _ original _ | KcL _ _ original _ | KcW _ _ original _ | KcP _ _ original _ =>
      if original then None else Some ([High; Low], [Close])
  | Mfi _ => Some ([Volume], [High; Low; Close])
  | _ => None
  end.
(** arguments and lengths for which nothing else is raised *)
Definition enough (ind : indicator F) (k : columns F) : Prop :=
  match ind with
  | Atr w => (1 <= w <= Z.of_nat (length (c_close k)))%Z
  | KcHI w a original _ | KcLI w a original _ | KcM w a original _ | KcH w a original _ | KcL w a original _ | KcW w a original _ | KcP w a original _ =>
      (1 <= w)%Z /\ (original = false -> 1 <= a <= Z.of_nat (length (c_close k)))%Z
  | Mfi w => (1 <= w)%Z /\ (2 <= length (c_high k))%nat
  | _ => True
  end.
End Spec.
