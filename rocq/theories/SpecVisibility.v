(** Specification for C39 and C51: what the words of a visibility group say
    (api_visibilitygroup.rst). *)
From Coq Require Import NArith List String.
From Verif Require Import Prim Values Groups1 Groups2 Groups4 Parser SpecNumeral SpecMiles SpecDirection SpecNearby SpecTexts.
Import ListNotations.
Local Open Scope string_scope.
Local Open Scope N_scope.

(** ** C39: which values go with which types *)
Definition variable_types : list ViType :=
  [Vi_VARIABLE_PREVAILING; Vi_VARIABLE_DIRECTIONAL; Vi_VARIABLE_RUNWAY; Vi_VARIABLE_RVR; Vi_VARIABLE_SECTOR].
(** VISNO: the runway or the direction in which visibility is not available *)
Definition runway_types : list ViType := [Vi_RUNWAY; Vi_VARIABLE_RUNWAY; Vi_RVR; Vi_VARIABLE_RVR; Vi_VISNO].
Definition directional_types : list ViType := [Vi_DIRECTIONAL; Vi_VARIABLE_DIRECTIONAL; Vi_PREVAILING_NDV; Vi_VISNO].
Definition sector_types : list ViType := [Vi_SECTOR; Vi_VARIABLE_SECTOR; Vi_VISNO].

(** ** C51: what a visibility group tells *)
Record sight := Sight
  { s_type : ViType; s_visibility : Distance; s_minimum : Distance; s_maximum : Distance; s_trend : ViTrend;
    s_direction : option Direction; s_runway : option Runway; s_sector : option (Direction * Direction) }.
Definition seen_by (g : VisibilityGroup) : sight :=
  Sight (vi_type g) (VisibilityGroup_visibility g) (VisibilityGroup_minVisibility g) (VisibilityGroup_maxVisibility g)
    (vi_trend g) (vi_dir g) (vi_rw g)
    (match vi_secFrom g, vi_secTo g with Some a, Some b => Some (a, b) | _, _ => None end).
Definition no_distance : Distance := mkDist DM_NONE None METERS.

(** Where the visibility was determined *)
Inductive place := Around | Towards (d : Direction) | Sector (from till : Direction) | Along (r : Runway).
Definition direction_of (p : place) : option Direction := match p with Towards d => Some d | _ => None end.
Definition runway_of (p : place) : option Runway := match p with Along r => Some r | _ => None end.
Definition sector_of (p : place) : option (Direction * Direction) := match p with Sector a b => Some (a, b) | _ => None end.
Definition type_of (p : place) : ViType :=
  match p with Around => Vi_PREVAILING | Towards _ => Vi_DIRECTIONAL | Sector _ _ => Vi_SECTOR | Along _ => Vi_RUNWAY end.
Definition variable_type_of (p : place) : ViType :=
  match p with
  | Around => Vi_VARIABLE_PREVAILING | Towards _ => Vi_VARIABLE_DIRECTIONAL
  | Sector _ _ => Vi_VARIABLE_SECTOR | Along _ => Vi_VARIABLE_RUNWAY
  end.
Definition told (t : ViType) (p : place) (d : Distance) : sight :=
  Sight t d no_distance no_distance Vt_NONE (direction_of p) (runway_of p) (sector_of p).
Definition seen (p : place) (d : Distance) : sight := told (type_of p) p d.
Definition varies (p : place) (low high : Distance) : sight :=
  Sight (variable_type_of p) no_distance low high Vt_NONE (direction_of p) (runway_of p) (sector_of p).

(** ** Distances *)
(** Statute miles, kept in 1/10000 of a mile and rounded down; less than and more than *)
Definition Miles (ending s : string) (d : Distance) : Prop :=
  exists prefix m body w n q k, s = prefix ++ body ++ ending /\ In (prefix, m) limits /\ MileText body w n q
    /\ d = mkDist m (Some k) STATUTE_MILES /\ k * q <= 10000 * (w * q + n) < (k + 1) * q.
Definition Whole_miles (s : string) (d : Distance) : Prop :=
  exists prefix m n v, s = prefix ++ n /\ In (prefix, m) limits /\ short_numeral n v
    /\ d = mkDist m (Some (10000 * v)) STATUTE_MILES.
(** With a slash: a fraction, or whole miles and a fraction run together *)
Definition Broken_miles (s : string) (d : Distance) : Prop := Miles "" s d /\ exists a b, s = a ++ "/" ++ b.
(** Whole miles in one word and a fraction in the next *)
Definition Added (whole fraction d : Distance) : Prop :=
  exists m a b, whole = mkDist m (Some a) STATUTE_MILES /\ fraction = mkDist DM_NONE (Some b) STATUTE_MILES
    /\ a mod 10000 = 0 /\ b mod 10000 <> 0 /\ d = mkDist m (Some (a + b)) STATUTE_MILES.
Definition Fraction (s : string) (d : Distance) : Prop :=
  exists s1 s2 n q k, s = s1 ++ "/" ++ s2 /\ short_numeral s1 n /\ short_numeral s2 q
    /\ d = mkDist DM_NONE (Some k) STATUTE_MILES /\ k * q <= 10000 * n < (k + 1) * q.
(** In remarks *)
Inductive Amount : list string -> Distance -> Prop :=
| Amount_whole : forall w d, Whole_miles w d -> Amount [w] d
| Amount_broken : forall w d, Broken_miles w d -> Amount [w] d
| Amount_added : forall w x a b d, Whole_miles w a -> Broken_miles x b -> Added a b d -> Amount [w; x] d.
Definition Meters_number (s : string) (d : Distance) : Prop := Meters s d /\ s <> "////".
(** The lower end, before the letter V *)
Inductive Low : list string -> string -> Distance -> Prop :=
| Low_one : forall a d, Miles "" a d -> Low [] a d
| Low_added : forall w x a b d, Whole_miles w a -> Miles "" x b -> Added a b d -> Low [w] x d.
(** The upper end, after it *)
Inductive High : string -> list string -> Distance -> Prop :=
| High_one : forall a d, Miles "" a d -> High a [] d
| High_added : forall w x a b d, Whole_miles w a -> Fraction x b -> Added a b d -> High w [x] d.
Inductive Range : list string -> Distance -> Distance -> Prop :=
| Range_miles : forall before a b after low high, Low before a low -> High b after high ->
    Range (before ++ [a ++ "V" ++ b] ++ after) low high
| Range_meters : forall a b low high, Meters_number a low -> Meters_number b high -> Range [a ++ "V" ++ b] low high.

(** ** Directions *)
Inductive Place_text : string -> place -> Prop :=
| Place_octant : forall w o, In (w, o) octant_names -> Place_text w (Towards (towards o))
| Place_variation : Place_text "NDV" (Towards (mkDir 0 DT_NDV))
| Place_sector : forall v m w o o', In (v, o) octant_names -> Between m -> In (w, o') octant_names ->
    Place_text (v ++ m ++ "-" ++ w) (Sector (towards o) (towards o')).

(** ** Runway visual range *)
Definition trends : list (string * ViTrend) :=
  [("", Vt_NONE); ("/", Vt_NOT_REPORTED); ("U", Vt_UPWARD); ("N", Vt_NEUTRAL); ("D", Vt_DOWNWARD)].
(** Unit and trend; a slash after the unit belongs to the unit. *)
Definition Ending (s : string) (feet : bool) (t : ViTrend) : Prop :=
  exists u w, s = u ++ w /\ In (u, feet) [("", false); ("FT", true); ("FT/", true)] /\ In (w, t) trends
    /\ ~ (u = "FT" /\ w = "/").
Inductive Runway_range : string -> sight -> Prop :=
| Runway_range_one : forall r x e runway feet d t, Runway_text false r runway -> Visual_range feet x d -> Ending e feet t ->
    Runway_range (r ++ "/" ++ x ++ e) (Sight Vi_RVR d no_distance no_distance t None (Some runway) None)
| Runway_range_varies : forall r x y e runway feet low high t, Runway_text false r runway ->
    Visual_range feet x low -> Visual_range feet y high -> y <> "////" -> Ending e feet t ->
    Runway_range (r ++ "/" ++ x ++ "V" ++ y ++ e) (Sight Vi_VARIABLE_RVR no_distance low high t None (Some runway) None)
| Runway_range_none : forall e feet t, Ending e feet t -> t <> Vt_NOT_REPORTED ->
    Runway_range ("R//" ++ "/" ++ "////" ++ e)
      (Sight Vi_RVR (mkDist DM_NONE None (if feet then FEET else METERS)) no_distance no_distance t None None None)
| Runway_range_none_varies : forall y e feet high t, Visual_range feet y high -> y <> "////" -> Ending e feet t -> t <> Vt_NOT_REPORTED ->
    Runway_range ("R//" ++ "/" ++ "////" ++ "V" ++ y ++ e)
      (Sight Vi_VARIABLE_RVR no_distance (mkDist DM_NONE None (if feet then FEET else METERS)) high t None None None).

(** The sequences of words which make up one visibility group, and what the group tells *)
Inductive Visibility (part : ReportPart) : list string -> sight -> Prop :=
| Visibility_miles : forall w d, part = RP_METAR \/ part = RP_TAF -> Miles "SM" w d -> Visibility part [w] (seen Around d)
| Visibility_no_miles : part = RP_METAR \/ part = RP_TAF ->
    Visibility part ["////SM"] (seen Around (mkDist DM_NONE None STATUTE_MILES))
| Visibility_two_words : forall w x a b d, part = RP_METAR \/ part = RP_TAF ->
    Whole_miles w a -> distModifier a = DM_NONE -> Miles "SM" x b -> Added a b d -> Visibility part [w; x] (seen Around d)
| Visibility_meters : forall w d, part = RP_METAR \/ part = RP_TAF -> Meters w d -> Visibility part [w] (seen Around d)
| Visibility_towards : forall w x d o, part = RP_METAR \/ part = RP_TAF -> Meters w d -> In (x, o) octant_names ->
    Visibility part [w ++ x] (seen (Towards (towards o)) d)
| Visibility_no_variation : forall w d, part = RP_METAR \/ part = RP_TAF -> Meters w d ->
    Visibility part [w ++ "NDV"] (told Vi_PREVAILING_NDV (Towards (mkDir 0 DT_NDV)) d)
(** Letters which are no direction are ignored. *)
| Visibility_letters : forall w x d, part = RP_METAR \/ part = RP_TAF -> Meters w d -> matches "[NSWE][WED]?[V]?" x ->
    ~ In x (map fst octant_names) -> x <> "NDV" -> Visibility part [w ++ x] (seen Around d)
| Visibility_runway : forall w s, part = RP_METAR -> Runway_range w s -> Visibility part [w] s
| Visibility_missing : part = RP_RMK -> Visibility part ["VIS"; "MISG"] (told Vi_VIS_MISG Around no_distance)
| Visibility_place : forall w p ws d, part = RP_RMK -> Place_text w p -> Amount ws d -> Visibility part (["VIS"; w] ++ ws) (seen p d)
| Visibility_place_varies : forall w p ws low high, part = RP_RMK -> Place_text w p -> Range ws low high ->
    Visibility part (["VIS"; w] ++ ws) (varies p low high)
| Visibility_varies : forall ws low high, part = RP_RMK -> Range ws low high -> Visibility part ("VIS" :: ws) (varies Around low high)
| Visibility_along_varies : forall ws low high w r, part = RP_RMK -> Range ws low high -> Runway_text true w r ->
    Visibility part ("VIS" :: ws ++ [w]) (varies (Along r) low high)
| Visibility_along : forall ws d w r, part = RP_RMK -> Amount ws d -> Runway_text true w r ->
    Visibility part ("VIS" :: ws ++ [w]) (seen (Along r) d)
| Visibility_along_meters : forall x d w r, part = RP_RMK -> Meters_number x d -> Runway_text true w r ->
    Visibility part ["VIS"; x; w] (seen (Along r) d)
| Visibility_observer : forall w t ws d, part = RP_RMK -> In (w, t) [("SFC", Vi_SURFACE); ("TWR", Vi_TOWER)] -> Amount ws d ->
    Visibility part ([w; "VIS"] ++ ws) (told t Around d)
| Visibility_observer_meters : forall w t x d, part = RP_RMK -> In (w, t) [("SFC", Vi_SURFACE); ("TWR", Vi_TOWER)] ->
    Meters_number x d -> Visibility part [w; "VIS"; x] (told t Around d)
| Visibility_range_missing : part = RP_RMK -> Visibility part ["RVR"; "MISG"] (told Vi_RVR_MISG Around no_distance)
| Visibility_no_range : part = RP_RMK -> Visibility part ["RVRNO"] (told Vi_RVRNO Around no_distance)
| Visibility_none : part = RP_RMK -> Visibility part ["VISNO"] (told Vi_VISNO Around no_distance)
| Visibility_none_along : forall w r, part = RP_RMK -> Runway_text true w r ->
    Visibility part ["VISNO"; w] (told Vi_VISNO (Along r) no_distance)
| Visibility_none_place : forall w p, part = RP_RMK -> Place_text w p ->
    Visibility part ["VISNO"; w] (told Vi_VISNO p no_distance).

(** The group may end here: there is a next word which is left to the next group. *)
Definition may_end (part : ReportPart) (g : Group) : Prop :=
  exists word md g', Group_append g word part md = Ok (g', NOT_APPENDED).

(** C39 *)
Definition fields_match_type (g : VisibilityGroup) : Prop :=
  (Distance_isReported (VisibilityGroup_maxVisibility g) = true <-> In (vi_type g) variable_types)
  /\ (Distance_isReported (VisibilityGroup_minVisibility g) = true -> In (vi_type g) variable_types)
  /\ (Distance_isReported (VisibilityGroup_visibility g) = true -> ~ In (vi_type g) variable_types)
  /\ (vi_rw g <> None -> In (vi_type g) runway_types)
  /\ (vi_dir g <> None -> In (vi_type g) directional_types)
  /\ (VisibilityGroup_sectorDirections g <> Ok nil -> In (vi_type g) sector_types)
  (* and these types never lack theirs *)
  /\ (In (vi_type g) [Vi_RUNWAY; Vi_VARIABLE_RUNWAY] -> vi_rw g <> None)
  /\ (In (vi_type g) [Vi_DIRECTIONAL; Vi_VARIABLE_DIRECTIONAL; Vi_PREVAILING_NDV] -> vi_dir g <> None)
  /\ (vi_trend g <> Vt_NONE -> In (vi_type g) [Vi_RVR; Vi_VARIABLE_RVR]).
