(** Specification for C52: what the words of cloud groups, cloud type groups and groups of low,
    middle and high clouds say (api_cloudgroup.rst, api_cloudtypesgroup.rst,
    api_lowmidhighcloudgroup.rst). *)
From Coq Require Import NArith List String.
From Verif Require Import Prim Values Weather Groups1 Groups2 Groups4 Parser SpecNumeral SpecCloud SpecDirection SpecNearby SpecTexts.
Import ListNotations.
Local Open Scope string_scope.
Local Open Scope N_scope.

(** ** Cloud groups *)
(** What a cloud group tells, through its accessors *)
Record sky := Sky
  { k_type : ClType; k_amount : ClAmount; k_height : Distance; k_minimum : Distance; k_maximum : Distance;
    k_vertical : Distance; k_convective : ClConv; k_runway : option Runway; k_direction : option Direction;
    k_cloud : option CloudType }.
Definition sky_of (g : CloudGroup) : sky :=
  Sky (cl_tp g) (cl_amnt g) (CloudGroup_height g) (CloudGroup_minHeight g) (CloudGroup_maxHeight g)
    (CloudGroup_verticalVisibility g) (cl_conv g) (cl_rw g) (cl_dir g) (CloudGroup_cloudType g).
Definition no_height : Distance := mkDist DM_NONE None FEET.

Definition no_clouds : list (string * ClAmount) :=
  [("NCD", Am_NCD); ("NSC", Am_NSC); ("CLR", Am_NONE_CLR); ("SKC", Am_NONE_SKC)].
(** Amount and the most oktas it stands for *)
Definition amounts : list (string * (ClAmount * N)) :=
  [("FEW", (Am_FEW, 2)); ("SCT", (Am_SCATTERED, 4)); ("BKN", (Am_BROKEN, 7)); ("OVC", (Am_OVERCAST, 8))].
Definition amount_or_not : list (string * (ClAmount * N)) := (amounts ++ [("///", (Am_NOT_REPORTED, 0))])%list.
Definition convective : list (string * (ClConv * CtType)) :=
  [("", (Cv_NONE, Ct_NOT_REPORTED)); ("TCU", (Cv_TOWERING_CUMULUS, Ct_TOWERING_CUMULUS));
   ("CB", (Cv_CUMULONIMBUS, Ct_CUMULONIMBUS)); ("///", (Cv_NOT_REPORTED, Ct_NOT_REPORTED))].
(** One amount and the next *)
Definition variable_amounts : list (string * string * (ClAmount * N)) :=
  [("FEW", "SCT", (Am_VARIABLE_FEW_SCATTERED, 4)); ("SCT", "BKN", (Am_VARIABLE_SCATTERED_BROKEN, 7));
   ("BKN", "OVC", (Am_VARIABLE_BROKEN_OVERCAST, 8))].
Definition obscurations : list (string * CtType) :=
  [("BLSN", Ct_BLOWING_SNOW); ("BLDU", Ct_BLOWING_DUST); ("BLSA", Ct_BLOWING_SAND);
   ("VA", Ct_VOLCANIC_ASH); ("FU", Ct_SMOKE); ("FG", Ct_FOG)].
Definition Height_number (s : string) (d : Distance) : Prop := Height s d /\ s <> "///".

(** Runway or direction, or neither *)
Inductive Site : list string -> option Runway -> option Direction -> Prop :=
| Site_none : Site [] None None
| Site_runway : forall w r, Runway_text true w r -> Site [w] (Some r) None
| Site_direction : forall w o, In (w, o) octant_names -> Site [w] None (Some (towards o))
| Site_variation : Site ["NDV"] None (Some (mkDir 0 DT_NDV)).

Definition plain (t : ClType) (a : ClAmount) : sky :=
  Sky t a no_height no_height no_height no_height Cv_NONE None None None.
Inductive Clouds (part : ReportPart) : list string -> sky -> Prop :=
| Clouds_none : forall w a, part = RP_METAR \/ part = RP_TAF -> In (w, a) no_clouds -> Clouds part [w] (plain Cl_NO_CLOUDS a)
| Clouds_layer : forall w h c a okta height v ct, part = RP_METAR \/ part = RP_TAF ->
    In (w, (a, okta)) amount_or_not -> Height h height -> In (c, (v, ct)) convective ->
    Clouds part [w ++ h ++ c]
      (Sky Cl_CLOUD_LAYER a height no_height no_height no_height v None None (Some (mkCloudType ct height okta)))
| Clouds_vertical : forall h d, part = RP_METAR \/ part = RP_TAF -> Height h d ->
    Clouds part ["VV" ++ h]
      (Sky Cl_VERTICAL_VISIBILITY Am_OBSCURED no_height no_height no_height d Cv_NONE None None None)
| Clouds_missing : part = RP_RMK -> Clouds part ["CLD"; "MISG"] (plain Cl_CLD_MISG Am_NOT_REPORTED)
| Clouds_chino : forall site r d, part = RP_RMK -> Site site r d ->
    Clouds part ("CHINO" :: site)
      (Sky Cl_CHINO Am_NOT_REPORTED no_height no_height no_height no_height Cv_NONE r d None)
| Clouds_ceiling : forall h height site r d, part = RP_RMK -> Height_number h height -> Site site r d ->
    Clouds part (["CIG"; h] ++ site)
      (Sky Cl_CEILING Am_NOT_REPORTED height no_height no_height no_height Cv_NONE r d
         (Some (mkCloudType Ct_NOT_REPORTED height 0)))
| Clouds_variable_ceiling : forall a b low high site r d, part = RP_RMK ->
    Height_number a low -> Height_number b high -> Site site r d ->
    Clouds part (["CIG"; a ++ "V" ++ b] ++ site)
      (Sky Cl_VARIABLE_CEILING Am_NOT_REPORTED no_height low high no_height Cv_NONE r d
         (Some (mkCloudType Ct_NOT_REPORTED low 0)))
| Clouds_obscuration : forall x t w a okta h height, part = RP_RMK -> In (x, t) obscurations ->
    In (w, (a, okta)) amounts -> Height_number h height ->
    Clouds part [x; w ++ h]
      (Sky Cl_OBSCURATION a height no_height no_height no_height Cv_NONE None None (Some (mkCloudType t height okta)))
| Clouds_variable : forall w x a okta h height, part = RP_RMK -> In (w, x, (a, okta)) variable_amounts ->
    Height_number h height \/ h = "" /\ height = mkDist DM_NONE None METERS ->
    Clouds part [w ++ h; "V"; x]
      (Sky Cl_CLOUD_LAYER a height no_height no_height no_height Cv_NONE None None
         (Some (mkCloudType Ct_NOT_REPORTED height okta))).

(** ** Groups of low, middle and high clouds *)
Definition low_clouds : list (string * LowLayer) :=
  [("0", Lo_NONE); ("1", Lo_CU_HU_CU_FR); ("2", Lo_CU_MED_CU_CON); ("3", Lo_CB_CAL); ("4", Lo_SC_CUGEN);
   ("5", Lo_SC_NON_CUGEN); ("6", Lo_ST_NEB_ST_FR); ("7", Lo_ST_FR_CU_FR_PANNUS);
   ("8", Lo_CU_SC_NON_CUGEN_DIFFERENT_LEVELS); ("9", Lo_CB_CAP); ("/", Lo_NOT_OBSERVABLE)].
Definition middle_clouds : list (string * MidLayer) :=
  [("0", Mi_NONE); ("1", Mi_AS_TR); ("2", Mi_AS_OP_NS); ("3", Mi_AC_TR); ("4", Mi_AC_TR_LEN_PATCHES);
   ("5", Mi_AC_TR_AC_OP_SPREADING); ("6", Mi_AC_CUGEN_AC_CBGEN); ("7", Mi_AC_DU_AC_OP_AC_WITH_AS_OR_NS);
   ("8", Mi_AC_CAS_AC_FLO); ("9", Mi_AC_OF_CHAOTIC_SKY); ("/", Mi_NOT_OBSERVABLE)].
Definition high_clouds : list (string * HighLayer) :=
  [("0", Hi_NONE); ("1", Hi_CI_FIB_CI_UNC); ("2", Hi_CI_SPI_CI_CAS_CI_FLO); ("3", Hi_CI_SPI_CBGEN);
   ("4", Hi_CI_FIB_CI_UNC_SPREADING); ("5", Hi_CI_CS_LOW_ABOVE_HORIZON); ("6", Hi_CI_CS_HIGH_ABOVE_HORIZON);
   ("7", Hi_CS_NEB_CS_FIB_COVERING_ENTIRE_SKY); ("8", Hi_CS); ("9", Hi_CC); ("/", Hi_NOT_OBSERVABLE)].
Inductive Sky_codes (part : ReportPart) : list string -> LowMidHighCloudGroup -> Prop :=
| Sky_codes_word : forall a b c low middle high, part = RP_RMK ->
    In (a, low) low_clouds -> In (b, middle) middle_clouds -> In (c, high) high_clouds ->
    Sky_codes part ["8/" ++ a ++ b ++ c] (mkLmh low middle high).

(** ** Cloud type groups *)
(** Several words, each with okta, type and base height; or one word in which clouds and
    obscurations are run together, each with its okta. There is room for eight of them: the words
    after these belong to another group, and what follows in one word is ignored. *)
Definition places : nat := 8%nat.
Inductive Cloud_types (part : ReportPart) : list string -> list CloudType -> Prop :=
| Cloud_types_words : forall words l, part = RP_RMK -> words <> [] -> (List.length words <= places)%nat ->
    Forall2 (fun w c => CloudText w c /\ Distance_isReported (ctHt c) = true) words l ->
    Cloud_types part words l
| Cloud_types_run : forall pieces l, part = RP_RMK -> pieces <> [] ->
    Forall (matches "[A-Z]{2,4}\d") pieces -> Forall2 CloudText (firstn places pieces) l ->
    Cloud_types part [String.concat "" pieces] l.
