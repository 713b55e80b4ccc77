(** C70: numbers in the explanations of distances, sunshine, density altitude and hailstones. *)
From Coq Require Import ZArith NArith QArith Qabs String List.
From Verif Require Import Prim Float Values Weather Groups1 Groups2 Groups3 Groups4 Parser Format Explain.
From Verif Require Import SpecReal SpecUnits SpecSumNumbers SpecShown SpecFigures SpecStream.
From Verif Require Import Pf_Figures Pf_Stream Pf_StreamMisc.
Import ListNotations.
Local Open Scope string_scope.

(** *** C70: a distance is shown in its unit, and in the other two units *)
Theorem C70_distance_units :
  forall (d : Distance) (n : N) (s : string), dist d = Some n ->
    (distModifier d = DM_NONE \/ distModifier d = DM_LESS_THAN \/ distModifier d = DM_MORE_THAN) -> explainDistance d = Ok s ->
    exists own a b, in_unit d (distUnit d) own /\ in_unit d (fst (other_units (distUnit d))) a /\ in_unit d (snd (other_units (distUnit d))) b
      /\ s = limit_sign (distModifier d) ++ own ++ " (" ++ a ++ " / " ++ b ++ ")".
Proof. exact distance_units. Qed.
Print Assumptions C70_distance_units.
(** Whole and fractional miles are shown as reported, when they are among the values which are reported by steps of a
    sixteenth, an eighth, a quarter of a mile, a mile and five miles. *)
Theorem C70_miles_fraction_partial :
  forall (m : DistModifier) (r : N) (s : string), reportable r -> (r <= 20000)%N -> (m = DM_NONE \/ m = DM_LESS_THAN \/ m = DM_MORE_THAN) ->
    explainDistance (mkDist m (Some (625 * r)%N) STATUTE_MILES) = Ok s ->
    exists a rest, mile_text a r /\ s = limit_sign m ++ a ++ " statute miles (" ++ rest.
Proof. exact miles_reported. Qed.
Print Assumptions C70_miles_fraction_partial.
Example C70_units_nonvacuous :
  explainDistance (mkDist DM_NONE (Some 17500%N) STATUTE_MILES) = Ok "1 3/4 statute miles (2816 meters / 9240 feet)"
  /\ explainDistance (mkDist DM_LESS_THAN (Some 1000%N) FEET) = Ok "&lt;1000 feet (304 meters / 3/16 statute miles)"
  /\ reportable 28.
Proof.
  split; [vm_compute; reflexivity|]. split; [vm_compute; reflexivity|]. right. left. split; [split; [intros X; discriminate X|reflexivity]|]. exists 14%N. reflexivity.
Qed.

(** *** C70: other numbers are rounded to six digits, *)
Theorem C70_six_digits :
  forall (t : MsType) (x : flt) (q : Q) (part : ReportPart) (raw before after : string),
    number_texts t = Some (before, after) -> flt_value x = Some q -> (ten_to (-45) <= Qabs q)%Q -> (Qabs q < ten_to 45)%Q ->
    exists n v, visit_Misc (mkMisc t (Some x) MsI_NONE) part raw = Ok (before ++ (if Qlt_le_dec q 0 then "-" else "") ++ n ++ after)
      /\ stands_for n v /\ six_digits v (Qabs q).
Proof. exact misc_shown. Qed.
Print Assumptions C70_six_digits.
(** and whole numbers below a million are shown with all their digits. *)
Theorem C70_whole_numbers :
  forall (t : MsType) (n : N) (part : ReportPart) (raw before after : string),
    number_texts t = Some (before, after) -> (0 < n < 1000000)%N ->
    exists a, visit_Misc (mkMisc t (Some (f32_of_N n)) MsI_NONE) part raw = Ok (before ++ a ++ after) /\ whole a n.
Proof. exact misc_whole. Qed.
Print Assumptions C70_whole_numbers.
Theorem C70_no_sunshine :
  forall (part : ReportPart) (raw : string) (s : bool),
    visit_Misc (mkMisc Ms_SUNSHINE_DURATION_MINUTES (Some (S754_zero s)) MsI_NONE) part raw = Ok "No sunshine occurred the previous calendar day".
Proof. exact misc_zero. Qed.
Print Assumptions C70_no_sunshine.
Example C70_numbers_nonvacuous :
  visit_Misc (mkMisc Ms_HAILSTONE_SIZE (Some (f32_div (f32_of_N 7) (f32_of_N 4))) MsI_NONE) RP_RMK "" = Ok "Largest hailstone size is 1.75 inches"
  /\ visit_Misc (mkMisc Ms_DENSITY_ALTITUDE (Some (f32_of_N 123456789)) MsI_NONE) RP_RMK "" = Ok "Density altitude  is 1.23457e+08 feet"
  /\ visit_Misc (mkMisc Ms_SUNSHINE_DURATION_MINUTES (Some (f32_of_N 96)) MsI_NONE) RP_RMK ""
     = Ok "Duration of sunshine that occurred the previous calendar day is 96 minutes".
Proof. repeat split; vm_compute; reflexivity. Qed.
