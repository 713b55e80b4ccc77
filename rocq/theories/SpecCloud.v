(** Specification for C21: cloud types and obscurations in remarks like 8NS070 or SC1. *)
From Coq Require Import String List NArith.
From Verif Require Import Values Weather SpecNumeral.
Import ListNotations.
Local Open Scope string_scope.

Definition cloud_codes : list (string * CtType) :=
  [("CB", Ct_CUMULONIMBUS); ("TCU", Ct_TOWERING_CUMULUS); ("CU", Ct_CUMULUS); ("CF", Ct_CUMULUS_FRACTUS);
   ("SC", Ct_STRATOCUMULUS); ("NS", Ct_NIMBOSTRATUS); ("ST", Ct_STRATUS); ("SF", Ct_STRATUS_FRACTUS);
   ("AS", Ct_ALTOSTRATUS); ("AC", Ct_ALTOCUMULUS); ("ACC", Ct_ALTOCUMULUS_CASTELLANUS);
   ("CI", Ct_CIRRUS); ("CS", Ct_CIRROSTRATUS); ("CC", Ct_CIRROCUMULUS)].
Definition obscuration_codes : list (string * CtType) :=
  [("BLSN", Ct_BLOWING_SNOW); ("BLDU", Ct_BLOWING_DUST); ("BLSA", Ct_BLOWING_SAND); ("IC", Ct_ICE_CRYSTALS);
   ("RA", Ct_RAIN); ("DZ", Ct_DRIZZLE); ("SN", Ct_SNOW); ("PL", Ct_ICE_PELLETS); ("FU", Ct_SMOKE);
   ("FG", Ct_FOG); ("BR", Ct_MIST); ("HZ", Ct_HAZE); ("VA", Ct_VOLCANIC_ASH)].

(** [CloudText s c]: okta, type and base height in hundreds of feet; or type or obscuration and okta. *)
Inductive CloudText : string -> CloudType -> Prop :=
| Cloud_with_height : forall o code h t okta v,
    numeral 1 o okta -> In (code, t) cloud_codes -> numeral 3 h v ->
    CloudText (o ++ code ++ h) (mkCloudType t (mkDist DM_NONE (Some (100 * v)%N) FEET) okta)
| Cloud_without_height : forall code o t okta,
    In (code, t) (cloud_codes ++ obscuration_codes) -> numeral 1 o okta ->
    CloudText (code ++ o) (mkCloudType t (mkDist DM_NONE None METERS) okta).
