(** Group classes LayerForecast, PressureTendency, CloudTypes, LowMidHighCloud, Lightning, Vicinity,
    Misc and Unknown (metaf.hpp 1677-2059, 6011-6723). Definitions only. *)

From Verif Require Import Prim Regex Float Values Weather Groups1 Groups2 Groups3.
Local Open Scope string_scope.
Local Open Scope N_scope.

(* ------------------------------------------------------------------ *)
(** ** LayerForecastGroup (1677-1721, 6011-6070) *)

Inductive LfType := Lf_ICING_TRACE_OR_NONE | Lf_ICING_LIGHT_MIXED | Lf_ICING_LIGHT_RIME_IN_CLOUD
| Lf_ICING_LIGHT_CLEAR_IN_PRECIPITATION | Lf_ICING_MODERATE_MIXED | Lf_ICING_MODERATE_RIME_IN_CLOUD
| Lf_ICING_MODERATE_CLEAR_IN_PRECIPITATION | Lf_ICING_SEVERE_MIXED | Lf_ICING_SEVERE_RIME_IN_CLOUD
| Lf_ICING_SEVERE_CLEAR_IN_PRECIPITATION | Lf_TURBULENCE_NONE | Lf_TURBULENCE_LIGHT
| Lf_TURBULENCE_MODERATE_IN_CLEAR_AIR_OCCASIONAL | Lf_TURBULENCE_MODERATE_IN_CLEAR_AIR_FREQUENT
| Lf_TURBULENCE_MODERATE_IN_CLOUD_OCCASIONAL | Lf_TURBULENCE_MODERATE_IN_CLOUD_FREQUENT
| Lf_TURBULENCE_SEVERE_IN_CLEAR_AIR_OCCASIONAL | Lf_TURBULENCE_SEVERE_IN_CLEAR_AIR_FREQUENT
| Lf_TURBULENCE_SEVERE_IN_CLOUD_OCCASIONAL | Lf_TURBULENCE_SEVERE_IN_CLOUD_FREQUENT
| Lf_TURBULENCE_EXTREME.
Scheme Equality for LfType.
Record LayerForecastGroup := mkLayerForecast                              (* 1716-1718 *)
  { lf_type : LfType; lf_base : Distance; lf_top : Distance }.
Definition LayerForecastGroup_isValid (g : LayerForecastGroup) : bool := true.  (* 1705 *)
(** 6011-6036 *)
Definition LayerForecast_typeFromStr (s : string) : option LfType :=
  lookup s [("60", Lf_ICING_TRACE_OR_NONE); ("61", Lf_ICING_LIGHT_MIXED);
    ("62", Lf_ICING_LIGHT_RIME_IN_CLOUD); ("63", Lf_ICING_LIGHT_CLEAR_IN_PRECIPITATION);
    ("64", Lf_ICING_MODERATE_MIXED); ("65", Lf_ICING_MODERATE_RIME_IN_CLOUD);
    ("66", Lf_ICING_MODERATE_CLEAR_IN_PRECIPITATION); ("67", Lf_ICING_SEVERE_MIXED);
    ("68", Lf_ICING_SEVERE_RIME_IN_CLOUD); ("69", Lf_ICING_SEVERE_CLEAR_IN_PRECIPITATION);
    ("50", Lf_TURBULENCE_NONE); ("51", Lf_TURBULENCE_LIGHT);
    ("52", Lf_TURBULENCE_MODERATE_IN_CLEAR_AIR_OCCASIONAL);
    ("53", Lf_TURBULENCE_MODERATE_IN_CLEAR_AIR_FREQUENT);
    ("54", Lf_TURBULENCE_MODERATE_IN_CLOUD_OCCASIONAL);
    ("55", Lf_TURBULENCE_MODERATE_IN_CLOUD_FREQUENT);
    ("56", Lf_TURBULENCE_SEVERE_IN_CLEAR_AIR_OCCASIONAL);
    ("57", Lf_TURBULENCE_SEVERE_IN_CLEAR_AIR_FREQUENT);
    ("58", Lf_TURBULENCE_SEVERE_IN_CLOUD_OCCASIONAL);
    ("59", Lf_TURBULENCE_SEVERE_IN_CLOUD_FREQUENT); ("5X", Lf_TURBULENCE_EXTREME)].
Definition rgx_layer : re := Eval vm_compute in rx "([65][\dX])(\d\d\d\d|////)".  (* 6045 *)
(** 6038-6062; [heights] is dereferenced (6058) *)
Definition LayerForecastGroup_parse (group : string) (part : ReportPart) (md : ReportMetadata)
  : res (option LayerForecastGroup) :=
  if negb (is_part part RP_TAF) then Ok None else
  match regex_match rgx_layer group with
  | None => Ok None
  | Some m =>
    match LayerForecast_typeFromStr (mstr m 1) with
    | None => Ok None
    | Some t =>
      let! heights := Distance_fromLayerString (mstr m 2) in
      let slashes := seqb (mstr m 2) "////" in
      if negb (has_value heights) && negb slashes then Ok None else
      if negb slashes then
        let! h := deref heights in
        Ok (Some (mkLayerForecast t (fst h) (snd h)))
      else Ok (Some (mkLayerForecast t Distance_default Distance_default))
    end
  end.
(** 6064-6070 *)
Definition LayerForecastGroup_append (g : LayerForecastGroup) (group : string) (part : ReportPart)
  (md : ReportMetadata) : res (LayerForecastGroup * AppendResult) := Ok (g, NOT_APPENDED).

(* ------------------------------------------------------------------ *)
(** ** PressureTendencyGroup (1723-1766, 6074-6163) *)

Inductive PtType := Pt_NOT_REPORTED | Pt_INCREASING_THEN_DECREASING | Pt_INCREASING_MORE_SLOWLY
| Pt_INCREASING | Pt_INCREASING_MORE_RAPIDLY | Pt_STEADY | Pt_DECREASING_THEN_INCREASING
| Pt_DECREASING_MORE_SLOWLY | Pt_DECREASING | Pt_DECREASING_MORE_RAPIDLY | Pt_RISING_RAPIDLY
| Pt_FALLING_RAPIDLY.
Scheme Equality for PtType.
Inductive PtTrend := Ptt_NOT_REPORTED | Ptt_HIGHER | Ptt_HIGHER_OR_SAME | Ptt_SAME
| Ptt_LOWER_OR_SAME | Ptt_LOWER.
Scheme Equality for PtTrend.
Record PressureTendencyGroup := mkPressureTendency                        (* 1762-1763 *)
  { pt_type : PtType; pt_difference : Pressure }.
Definition PressureTendencyGroup_isValid (g : PressureTendencyGroup) : bool := true. (* 1750 *)
(** 6074-6100 *)
Definition PressureTendency_trend (t : PtType) : PtTrend :=
  match t with
  | Pt_INCREASING_MORE_SLOWLY | Pt_INCREASING | Pt_INCREASING_MORE_RAPIDLY => Ptt_HIGHER
  | Pt_INCREASING_THEN_DECREASING => Ptt_HIGHER_OR_SAME
  | Pt_STEADY => Ptt_SAME
  | Pt_DECREASING_THEN_INCREASING => Ptt_LOWER_OR_SAME
  | Pt_DECREASING_MORE_SLOWLY | Pt_DECREASING | Pt_DECREASING_MORE_RAPIDLY => Ptt_LOWER
  | Pt_NOT_REPORTED | Pt_RISING_RAPIDLY | Pt_FALLING_RAPIDLY => Ptt_NOT_REPORTED
  end.
(** 6102-6118 *)
Definition PressureTendency_typeFromChar (c : ascii) : option PtType :=
  lookup (String c "") [("0", Pt_INCREASING_THEN_DECREASING); ("1", Pt_INCREASING_MORE_SLOWLY);
    ("2", Pt_INCREASING); ("3", Pt_INCREASING_MORE_RAPIDLY); ("4", Pt_STEADY);
    ("5", Pt_DECREASING_THEN_INCREASING); ("6", Pt_DECREASING_MORE_SLOWLY); ("7", Pt_DECREASING);
    ("8", Pt_DECREASING_MORE_RAPIDLY); ("/", Pt_NOT_REPORTED)].
Definition rgx_tendency : re := Eval vm_compute in rx "5([\d/])(\d\d\d|///)".  (* 6141 *)
(** 6120-6155 *)
Definition PressureTendencyGroup_parse (group : string) (part : ReportPart) (md : ReportMetadata)
  : res (option PressureTendencyGroup) :=
  if negb (is_part part RP_RMK) then Ok None else
  if seqb group "PRESRR" then Ok (Some (mkPressureTendency Pt_RISING_RAPIDLY Pressure_default)) else
  if seqb group "PRESFR" then Ok (Some (mkPressureTendency Pt_FALLING_RAPIDLY Pressure_default)) else
  match regex_match rgx_tendency group with
  | None => Ok None
  | Some m =>
    let! c := sget (mstr m 1) 0 in
    match PressureTendency_typeFromChar c with
    | None => Ok None
    | Some t =>
      let? pressure := Pressure_fromTendencyString (mstr m 2) in
      Ok (Some (mkPressureTendency t pressure))
    end
  end.
(** 6157-6163 *)
Definition PressureTendencyGroup_append (g : PressureTendencyGroup) (group : string)
  (part : ReportPart) (md : ReportMetadata) : res (PressureTendencyGroup * AppendResult) :=
  Ok (g, NOT_APPENDED).

(* ------------------------------------------------------------------ *)
(** ** CloudTypesGroup (1768-1785, 6167-6223) *)

(** 1782-1784: the array together with its size is the list of its first [cldTpSize] elements *)
Record CloudTypesGroup := mkCloudTypes { cty_cldTp : list CloudType }.
Definition cldTpMaxSize : nat := 8.                                       (* 1783 *)
(** 6167-6172 *)
Definition CloudTypesGroup_cloudTypes (g : CloudTypesGroup) : list CloudType := cty_cldTp g.
(** 6219-6223 *)
Definition CloudTypesGroup_isValid (g : CloudTypesGroup) : bool :=
  forallb CloudType_isValid (cty_cldTp g).
Definition rgx_cloudtypes : re := Eval vm_compute in rx "(?:(?:[A-Z]{2,4})[\d])+".  (* 6181 *)
Definition rgx_cloudtypes_search : re := Eval vm_compute in rx "[A-Z]{2,4}[\d]".    (* 6182 *)
(** 6195-6202 *)
Fixpoint CloudTypes_loop (ms : list string) (l : list CloudType) : res (option CloudTypesGroup) :=
  match ms with
  | [] => Ok (Some (mkCloudTypes l))
  | s :: ms' =>
    if Nat.leb cldTpMaxSize (List.length l) then Ok (Some (mkCloudTypes l)) else
    let? ctp := CloudType_fromString s in
    let! l' := array_push 8 l ctp in
    CloudTypes_loop ms' l'
  end.
(** 6174-6203 *)
Definition CloudTypesGroup_parse (group : string) (part : ReportPart) (md : ReportMetadata)
  : res (option CloudTypesGroup) :=
  if negb (is_part part RP_RMK) then Ok None else
  or_else (let? ctp := CloudType_fromString group in Ok (Some (mkCloudTypes [ctp]))) (
  if is_match rgx_cloudtypes group
  then CloudTypes_loop (regex_search_all rgx_cloudtypes_search group) []
  else Ok None).
(** 6205-6217; [cldTp[cldTpSize - 1]] with size 0 is out of bounds *)
Definition CloudTypesGroup_append (g : CloudTypesGroup) (group : string) (part : ReportPart)
  (md : ReportMetadata) : res (CloudTypesGroup * AppendResult) :=
  let l := cty_cldTp g in
  if Nat.leb cldTpMaxSize (List.length l) then Ok (g, NOT_APPENDED) else
  match List.rev l with
  | [] => Bad UB
  | last :: _ =>
    if negb (Distance_isReported (ctHt last)) then Ok (g, NOT_APPENDED) else
    let! ctp := CloudType_fromString group in
    match ctp with
    | None => Ok (g, NOT_APPENDED)
    | Some c =>
      if negb (Distance_isReported (ctHt c)) then Ok (g, NOT_APPENDED) else
      let! l' := array_push 8 l c in
      Ok (mkCloudTypes l', APPENDED)
    end
  end.

(* ------------------------------------------------------------------ *)
(** ** LowMidHighCloudGroup (1787-1849, 6227-6313) *)

Inductive LowLayer := Lo_NONE | Lo_CU_HU_CU_FR | Lo_CU_MED_CU_CON | Lo_CB_CAL | Lo_SC_CUGEN
| Lo_SC_NON_CUGEN | Lo_ST_NEB_ST_FR | Lo_ST_FR_CU_FR_PANNUS | Lo_CU_SC_NON_CUGEN_DIFFERENT_LEVELS
| Lo_CB_CAP | Lo_NOT_OBSERVABLE.
Scheme Equality for LowLayer.
Inductive MidLayer := Mi_NONE | Mi_AS_TR | Mi_AS_OP_NS | Mi_AC_TR | Mi_AC_TR_LEN_PATCHES
| Mi_AC_TR_AC_OP_SPREADING | Mi_AC_CUGEN_AC_CBGEN | Mi_AC_DU_AC_OP_AC_WITH_AS_OR_NS
| Mi_AC_CAS_AC_FLO | Mi_AC_OF_CHAOTIC_SKY | Mi_NOT_OBSERVABLE.
Scheme Equality for MidLayer.
Inductive HighLayer := Hi_NONE | Hi_CI_FIB_CI_UNC | Hi_CI_SPI_CI_CAS_CI_FLO | Hi_CI_SPI_CBGEN
| Hi_CI_FIB_CI_UNC_SPREADING | Hi_CI_CS_LOW_ABOVE_HORIZON | Hi_CI_CS_HIGH_ABOVE_HORIZON
| Hi_CS_NEB_CS_FIB_COVERING_ENTIRE_SKY | Hi_CS | Hi_CC | Hi_NOT_OBSERVABLE.
Scheme Equality for HighLayer.
Record LowMidHighCloudGroup := mkLmh                                      (* 1842-1844 *)
  { lmh_low : LowLayer; lmh_mid : MidLayer; lmh_high : HighLayer }.
(** 6227-6233 *)
Definition LowMidHighCloudGroup_isValid (g : LowMidHighCloudGroup) : bool :=
  if LowLayer_beq (lmh_low g) Lo_NOT_OBSERVABLE && negb (MidLayer_beq (lmh_mid g) Mi_NOT_OBSERVABLE)
  then false else
  if MidLayer_beq (lmh_mid g) Mi_NOT_OBSERVABLE && negb (HighLayer_beq (lmh_high g) Hi_NOT_OBSERVABLE)
  then false else true.
(** 6267-6281 *)
Definition Lmh_lowLayerFromChar (c : ascii) : LowLayer :=
  opt_default (lookup (String c "") [("0", Lo_NONE); ("1", Lo_CU_HU_CU_FR); ("2", Lo_CU_MED_CU_CON);
    ("3", Lo_CB_CAL); ("4", Lo_SC_CUGEN); ("5", Lo_SC_NON_CUGEN); ("6", Lo_ST_NEB_ST_FR);
    ("7", Lo_ST_FR_CU_FR_PANNUS); ("8", Lo_CU_SC_NON_CUGEN_DIFFERENT_LEVELS); ("9", Lo_CB_CAP)])
    Lo_NOT_OBSERVABLE.
(** 6283-6297 *)
Definition Lmh_midLayerFromChar (c : ascii) : MidLayer :=
  opt_default (lookup (String c "") [("0", Mi_NONE); ("1", Mi_AS_TR); ("2", Mi_AS_OP_NS);
    ("3", Mi_AC_TR); ("4", Mi_AC_TR_LEN_PATCHES); ("5", Mi_AC_TR_AC_OP_SPREADING);
    ("6", Mi_AC_CUGEN_AC_CBGEN); ("7", Mi_AC_DU_AC_OP_AC_WITH_AS_OR_NS); ("8", Mi_AC_CAS_AC_FLO);
    ("9", Mi_AC_OF_CHAOTIC_SKY)]) Mi_NOT_OBSERVABLE.
(** 6299-6313 *)
Definition Lmh_highLayerFromChar (c : ascii) : HighLayer :=
  opt_default (lookup (String c "") [("0", Hi_NONE); ("1", Hi_CI_FIB_CI_UNC);
    ("2", Hi_CI_SPI_CI_CAS_CI_FLO); ("3", Hi_CI_SPI_CBGEN); ("4", Hi_CI_FIB_CI_UNC_SPREADING);
    ("5", Hi_CI_CS_LOW_ABOVE_HORIZON); ("6", Hi_CI_CS_HIGH_ABOVE_HORIZON);
    ("7", Hi_CS_NEB_CS_FIB_COVERING_ENTIRE_SKY); ("8", Hi_CS); ("9", Hi_CC)]) Hi_NOT_OBSERVABLE.
Definition rgx_lmh : re := Eval vm_compute in rx "8/([0-9/])([0-9/])([0-9/])".  (* 6242 *)
(** 6236-6257 *)
Definition LowMidHighCloudGroup_parse (group : string) (part : ReportPart) (md : ReportMetadata)
  : res (option LowMidHighCloudGroup) :=
  if negb (is_part part RP_RMK) then Ok None else
  match regex_match rgx_lmh group with
  | None => Ok None
  | Some m =>
    let! l := sget (mstr m 1) 0 in
    let! c := sget (mstr m 2) 0 in
    let! h := sget (mstr m 3) 0 in
    Ok (Some (mkLmh (Lmh_lowLayerFromChar l) (Lmh_midLayerFromChar c) (Lmh_highLayerFromChar h)))
  end.
(** 6259-6265 *)
Definition LowMidHighCloudGroup_append (g : LowMidHighCloudGroup) (group : string)
  (part : ReportPart) (md : ReportMetadata) : res (LowMidHighCloudGroup * AppendResult) :=
  Ok (g, NOT_APPENDED).

(* ------------------------------------------------------------------ *)
(** ** LightningGroup (1851-1899, 6317-6429) *)

Inductive LtFreq := Lt_NONE | Lt_OCCASIONAL | Lt_FREQUENT | Lt_CONSTANT.
Scheme Equality for LtFreq.
Record LightningGroup := mkLightning                                      (* 1878-1889 *)
  { lt_freq : LtFreq; lt_dist : Distance; lt_cloudGround : bool; lt_inCloud : bool;
    lt_cloudCloud : bool; lt_cloudAir : bool; lt_unknown : bool;
    lt_dir1from : option Direction; lt_dir1to : option Direction;
    lt_dir2from : option Direction; lt_dir2to : option Direction; lt_incomplete : bool }.
Definition Lightning_default : LightningGroup :=                          (* 1869 *)
  mkLightning Lt_NONE Distance_default false false false false false None None None None false.
Definition Lightning_ofFreq (f : LtFreq) : LightningGroup :=              (* 1891-1894 *)
  mkLightning f Distance_default false false false false false None None None None true.
Definition LightningGroup_isValid (g : LightningGroup) : bool := negb (lt_unknown g). (* 1867 *)
Definition Lightning_isOmittedDir1 (g : LightningGroup) : bool :=         (* 1897 *)
  negb (has_value (lt_dir1from g)) && negb (has_value (lt_dir1to g)).
Definition Lightning_isOmittedDir2 (g : LightningGroup) : bool :=         (* 1898 *)
  negb (has_value (lt_dir2from g)) && negb (has_value (lt_dir2to g)).
Definition Lightning_setFreq (g : LightningGroup) (f : LtFreq) : LightningGroup :=
  mkLightning f (lt_dist g) (lt_cloudGround g) (lt_inCloud g) (lt_cloudCloud g) (lt_cloudAir g)
    (lt_unknown g) (lt_dir1from g) (lt_dir1to g) (lt_dir2from g) (lt_dir2to g) (lt_incomplete g).
Definition Lightning_setDist (g : LightningGroup) (d : Distance) : LightningGroup :=
  mkLightning (lt_freq g) d (lt_cloudGround g) (lt_inCloud g) (lt_cloudCloud g) (lt_cloudAir g)
    (lt_unknown g) (lt_dir1from g) (lt_dir1to g) (lt_dir2from g) (lt_dir2to g) (lt_incomplete g).
Definition Lightning_setDir1 (g : LightningGroup) (a b : option Direction) : LightningGroup :=
  mkLightning (lt_freq g) (lt_dist g) (lt_cloudGround g) (lt_inCloud g) (lt_cloudCloud g)
    (lt_cloudAir g) (lt_unknown g) a b (lt_dir2from g) (lt_dir2to g) (lt_incomplete g).
Definition Lightning_setDir2 (g : LightningGroup) (a b : option Direction) : LightningGroup :=
  mkLightning (lt_freq g) (lt_dist g) (lt_cloudGround g) (lt_inCloud g) (lt_cloudCloud g)
    (lt_cloudAir g) (lt_unknown g) (lt_dir1from g) (lt_dir1to g) a b (lt_incomplete g).
(** 6403-6407 *)
Definition Lightning_addType (g : LightningGroup) (t : string) : LightningGroup :=
  let ic := seqb t "IC" in let cc := seqb t "CC" in
  let cg := seqb t "CG" in let ca := seqb t "CA" in
  mkLightning (lt_freq g) (lt_dist g) (lt_cloudGround g || cg) (lt_inCloud g || ic)
    (lt_cloudCloud g || cc) (lt_cloudAir g || ca) (lt_unknown g || negb (ic || cc || cg || ca))
    (lt_dir1from g) (lt_dir1to g) (lt_dir2from g) (lt_dir2to g) (lt_incomplete g).
(** 6399-6408, [n] lightning types left *)
Fixpoint Lightning_typeLoop (group : string) (n currPos : nat) (g : LightningGroup)
  : res LightningGroup :=
  match n with
  | O => Ok g
  | S n' =>
    if Nat.ltb currPos (slen group) then
      let! currType := substr group currPos 2 in
      Lightning_typeLoop group n' (currPos + 2) (Lightning_addType g currType)
    else Ok g
  end.
(** 6383-6410 *)
Definition Lightning_fromLtgGroup (group : string) : res (option LightningGroup) :=
  if seqb group "LTG" then Ok (Some Lightning_default) else
  if Nat.ltb (slen group) 3 then Ok None else
  let! p := substr group 0 3 in
  if negb (seqb p "LTG") then Ok None else
  let! g := Lightning_typeLoop group 6 3 Lightning_default in
  Ok (Some g).
(** 6317-6328 *)
Definition LightningGroup_parse (group : string) (part : ReportPart) (md : ReportMetadata)
  : res (option LightningGroup) :=
  if negb (is_part part RP_RMK) then Ok None else
  if seqb group "OCNL" then Ok (Some (Lightning_ofFreq Lt_OCCASIONAL)) else
  if seqb group "FRQ" then Ok (Some (Lightning_ofFreq Lt_FREQUENT)) else
  if seqb group "CONS" then Ok (Some (Lightning_ofFreq Lt_CONSTANT)) else
  Lightning_fromLtgGroup group.
(** 6330-6381 *)
Definition LightningGroup_append (g : LightningGroup) (group : string) (part : ReportPart)
  (md : ReportMetadata) : res (LightningGroup * AppendResult) :=
  if lt_incomplete g then
    let! ltg := Lightning_fromLtgGroup group in
    match ltg with
    | Some l => Ok (Lightning_setFreq l (lt_freq g), APPENDED)
    | None => Ok (g, GROUP_INVALIDATED)
    end
  else
  if negb (Lightning_isOmittedDir2 g) then Ok (g, NOT_APPENDED) else
  if negb (Lightning_isOmittedDir1 g) then
    if seqb group "AND" then Ok (g, APPENDED) else
    match Direction_fromCardinalString group true false with
    | Some d => Ok (Lightning_setDir2 g (Some d) (lt_dir2to g), APPENDED)
    | None =>
      match Direction_fromSectorString group with
      | Some (a, b) => Ok (Lightning_setDir2 g (Some a) (Some b), APPENDED)
      | None => Ok (g, NOT_APPENDED)
      end
    end
  else
  if seqb group "DSNT" then Ok (Lightning_setDist g Distance_makeDistant, APPENDED) else
  if seqb group "VC" then Ok (Lightning_setDist g Distance_makeVicinity, APPENDED) else
  match Direction_fromCardinalString group true false with
  | Some d => Ok (Lightning_setDir1 g (Some d) (lt_dir1to g), APPENDED)
  | None =>
    match Direction_fromSectorString group with
    | Some (a, b) => Ok (Lightning_setDir1 g (Some a) (Some b), APPENDED)
    | None => Ok (g, NOT_APPENDED)
    end
  end.
(** 6421-6427 (and 6558-6564): elements of the second list whose cardinal direction is not yet
    present are added at the end *)
Fixpoint merge_directions (result result2 : list Direction) : list Direction :=
  match result2 with
  | [] => result
  | r2 :: l =>
    if existsb (fun r => Cardinal_beq (Direction_cardinal r false) (Direction_cardinal r2 false)) result
    then merge_directions result l
    else merge_directions (result ++ [r2])%list l
  end.
(** 6412-6429 and 6550-6566, on the four members of either class *)
Definition sector_directions (f1 t1 f2 t2 : option Direction) : res (list Direction) :=
  let! result := Direction_sectorCardinalDirToVector
                   (opt_default f1 Direction_default) (opt_default t1 Direction_default) in
  let! result2 := Direction_sectorCardinalDirToVector
                    (opt_default f2 Direction_default) (opt_default t2 Direction_default) in
  Ok (merge_directions result result2).
(** 6412-6429 *)
Definition LightningGroup_directions (g : LightningGroup) : res (list Direction) :=
  sector_directions (lt_dir1from g) (lt_dir1to g) (lt_dir2from g) (lt_dir2to g).

(* ------------------------------------------------------------------ *)
(** ** VicinityGroup (1901-1980, 6433-6566) *)

Inductive VcType := Vc_THUNDERSTORM | Vc_CUMULONIMBUS | Vc_CUMULONIMBUS_MAMMATUS
| Vc_TOWERING_CUMULUS | Vc_ALTOCUMULUS_CASTELLANUS | Vc_STRATOCUMULUS_STANDING_LENTICULAR
| Vc_ALTOCUMULUS_STANDING_LENTICULAR | Vc_CIRROCUMULUS_STANDING_LENTICULAR | Vc_ROTOR_CLOUD
| Vc_VIRGA | Vc_PRECIPITATION_IN_VICINITY | Vc_FOG | Vc_FOG_SHALLOW | Vc_FOG_PATCHES | Vc_HAZE
| Vc_SMOKE | Vc_BLOWING_SNOW | Vc_BLOWING_SAND | Vc_BLOWING_DUST.
Scheme Equality for VcType.
Inductive VcInc := VcI_NONE | VcI_EXPECT_CLD | VcI_EXPECT_DIST_DIR1 | VcI_EXPECT_DIR1
| VcI_EXPECT_DIR2_MOV | VcI_EXPECT_DIR2 | VcI_EXPECT_MOV | VcI_EXPECT_MOVDIR.
Scheme Equality for VcInc.
Record VicinityGroup := mkVicinity                                        (* 1941-1959 *)
  { vc_t : VcType; vc_dist : Distance; vc_dir1from : option Direction; vc_dir1to : option Direction;
    vc_dir2from : option Direction; vc_dir2to : option Direction; vc_movDir : Direction;
    vc_inc : VcInc }.
Definition Vicinity_of (t : VcType) : VicinityGroup :=                    (* 1972-1975 *)
  mkVicinity t Distance_default None None None None Direction_default
    (if VcType_beq t Vc_ROTOR_CLOUD then VcI_EXPECT_CLD else VcI_EXPECT_DIST_DIR1).
Definition VicinityGroup_isValid (g : VicinityGroup) : bool := VcInc_beq (vc_inc g) VcI_NONE. (* 1929 *)
Definition Vicinity_setInc (g : VicinityGroup) (i : VcInc) : VicinityGroup :=
  mkVicinity (vc_t g) (vc_dist g) (vc_dir1from g) (vc_dir1to g) (vc_dir2from g) (vc_dir2to g)
    (vc_movDir g) i.
Definition Vicinity_setDist (g : VicinityGroup) (d : Distance) : VicinityGroup :=
  mkVicinity (vc_t g) d (vc_dir1from g) (vc_dir1to g) (vc_dir2from g) (vc_dir2to g)
    (vc_movDir g) (vc_inc g).
Definition Vicinity_setDir1 (g : VicinityGroup) (a b : option Direction) : VicinityGroup :=
  mkVicinity (vc_t g) (vc_dist g) a b (vc_dir2from g) (vc_dir2to g) (vc_movDir g) (vc_inc g).
Definition Vicinity_setDir2 (g : VicinityGroup) (a b : option Direction) : VicinityGroup :=
  mkVicinity (vc_t g) (vc_dist g) (vc_dir1from g) (vc_dir1to g) a b (vc_movDir g) (vc_inc g).
Definition Vicinity_setMovDir (g : VicinityGroup) (d : Direction) : VicinityGroup :=
  mkVicinity (vc_t g) (vc_dist g) (vc_dir1from g) (vc_dir1to g) (vc_dir2from g) (vc_dir2to g)
    d (vc_inc g).
(** 6441-6459 *)
Definition vc_table : list (string * VcType) :=
  [("TS", Vc_THUNDERSTORM); ("CB", Vc_CUMULONIMBUS); ("CBMAM", Vc_CUMULONIMBUS_MAMMATUS);
   ("ACC", Vc_ALTOCUMULUS_CASTELLANUS); ("TCU", Vc_TOWERING_CUMULUS);
   ("SCSL", Vc_STRATOCUMULUS_STANDING_LENTICULAR); ("ACSL", Vc_ALTOCUMULUS_STANDING_LENTICULAR);
   ("CCSL", Vc_CIRROCUMULUS_STANDING_LENTICULAR); ("ROTOR", Vc_ROTOR_CLOUD); ("VIRGA", Vc_VIRGA);
   ("VCSH", Vc_PRECIPITATION_IN_VICINITY); ("FOG", Vc_FOG); ("FG", Vc_FOG); ("HAZE", Vc_HAZE);
   ("HZ", Vc_HAZE); ("SMOKE", Vc_SMOKE); ("FU", Vc_SMOKE); ("BLSN", Vc_BLOWING_SNOW);
   ("BLDU", Vc_BLOWING_DUST); ("BLSA", Vc_BLOWING_SAND); ("MIFG", Vc_FOG_SHALLOW);
   ("BCFG", Vc_FOG_PATCHES)].
(** 6433-6461 *)
Definition VicinityGroup_parse (group : string) (part : ReportPart) (md : ReportMetadata)
  : res (option VicinityGroup) :=
  if negb (is_part part RP_RMK) then Ok None else
  match lookup group vc_table with
  | Some t => Ok (Some (Vicinity_of t))
  | None => Ok None
  end.
(** 6511-6524, 6526-6539, 6541-6548; [None] when the function returns false *)
Definition Vicinity_appendDir1 (g : VicinityGroup) (str : string) : option VicinityGroup :=
  match Direction_fromCardinalString str true false with
  | Some d => Some (Vicinity_setDir1 g (Some d) (vc_dir1to g))
  | None =>
    match Direction_fromSectorString str with
    | Some (a, b) => Some (Vicinity_setDir1 g (Some a) (Some b))
    | None => None
    end
  end.
Definition Vicinity_appendDir2 (g : VicinityGroup) (str : string) : option VicinityGroup :=
  match Direction_fromCardinalString str true false with
  | Some d => Some (Vicinity_setDir2 g (Some d) (vc_dir2to g))
  | None =>
    match Direction_fromSectorString str with
    | Some (a, b) => Some (Vicinity_setDir2 g (Some a) (Some b))
    | None => None
    end
  end.
Definition Vicinity_appendDistance (g : VicinityGroup) (str : string) : res (option VicinityGroup) :=
  if seqb str "DSNT" then Ok (Some (Vicinity_setDist g Distance_makeDistant)) else
  if seqb str "VC" then Ok (Some (Vicinity_setDist g Distance_makeVicinity)) else
  let? d := Distance_fromKmString str in
  Ok (Some (Vicinity_setDist g d)).
(** 6463-6509 *)
Definition VicinityGroup_append (g : VicinityGroup) (group : string) (part : ReportPart)
  (md : ReportMetadata) : res (VicinityGroup * AppendResult) :=
  let invalid := Ok (g, GROUP_INVALIDATED) in
  let reject := Ok (Vicinity_setInc g VcI_NONE, NOT_APPENDED) in
  let next (g : VicinityGroup) (i : VcInc) := Ok (Vicinity_setInc g i, APPENDED) in
  match vc_inc g with
  | VcI_NONE => Ok (g, NOT_APPENDED)
  | VcI_EXPECT_CLD => if seqb group "CLD" then next g VcI_EXPECT_DIST_DIR1 else invalid
  | VcI_EXPECT_DIST_DIR1 =>
    let! d := Vicinity_appendDistance g group in
    match d with
    | Some g' => next g' VcI_EXPECT_DIR1
    | None =>
      match Vicinity_appendDir1 g group with
      | Some g' => next g' VcI_EXPECT_DIR2_MOV
      | None => invalid
      end
    end
  | VcI_EXPECT_DIR1 =>
    match Vicinity_appendDir1 g group with
    | Some g' => next g' VcI_EXPECT_DIR2_MOV
    | None => reject
    end
  | VcI_EXPECT_DIR2_MOV =>
    if seqb group "MOV" then next g VcI_EXPECT_MOVDIR else
    if seqb group "AND" then next g VcI_EXPECT_DIR2 else
    match Vicinity_appendDir2 g group with
    | Some g' => next g' VcI_EXPECT_MOV
    | None => reject
    end
  | VcI_EXPECT_DIR2 =>
    match Vicinity_appendDir2 g group with
    | Some g' => next g' VcI_EXPECT_MOV
    | None => invalid
    end
  | VcI_EXPECT_MOV => if seqb group "MOV" then next g VcI_EXPECT_MOVDIR else reject
  | VcI_EXPECT_MOVDIR =>
    match Direction_fromCardinalString group false true with
    | Some d => next (Vicinity_setMovDir g d) VcI_NONE
    | None => invalid
    end
  end.
(** 6550-6566 *)
Definition VicinityGroup_directions (g : VicinityGroup) : res (list Direction) :=
  sector_directions (vc_dir1from g) (vc_dir1to g) (vc_dir2from g) (vc_dir2to g).

(* ------------------------------------------------------------------ *)
(** ** MiscGroup (1982-2039, 6570-6723) *)

Inductive MsType := Ms_SUNSHINE_DURATION_MINUTES | Ms_CORRECTED_WEATHER_OBSERVATION
| Ms_DENSITY_ALTITUDE | Ms_HAILSTONE_SIZE | Ms_COLOUR_CODE_BLUE_PLUS | Ms_COLOUR_CODE_BLUE
| Ms_COLOUR_CODE_WHITE | Ms_COLOUR_CODE_GREEN | Ms_COLOUR_CODE_YELLOW | Ms_COLOUR_CODE_YELLOW1
| Ms_COLOUR_CODE_YELLOW2 | Ms_COLOUR_CODE_AMBER | Ms_COLOUR_CODE_RED | Ms_COLOUR_CODE_BLACKBLUE_PLUS
| Ms_COLOUR_CODE_BLACKBLUE | Ms_COLOUR_CODE_BLACKWHITE | Ms_COLOUR_CODE_BLACKGREEN
| Ms_COLOUR_CODE_BLACKYELLOW | Ms_COLOUR_CODE_BLACKYELLOW1 | Ms_COLOUR_CODE_BLACKYELLOW2
| Ms_COLOUR_CODE_BLACKAMBER | Ms_COLOUR_CODE_BLACKRED | Ms_FROIN | Ms_ISSUER_ID_FS | Ms_ISSUER_ID_FN.
Scheme Equality for MsType.
Inductive MsInc := MsI_NONE | MsI_DENSITY | MsI_DENSITY_ALT | MsI_GR | MsI_GR_INT.
Scheme Equality for MsInc.
Record MiscGroup := mkMisc { ms_type : MsType; ms_data : option flt; ms_inc : MsInc }. (* 2032-2034 *)
Definition MiscGroup_isValid (g : MiscGroup) : bool := MsInc_beq (ms_inc g) MsI_NONE. (* 6721-6723 *)
(** 6673-6693 *)
Definition Misc_parseColourCode (group : string) : option MsType :=
  lookup group [("BLU+", Ms_COLOUR_CODE_BLUE_PLUS); ("BLU", Ms_COLOUR_CODE_BLUE);
    ("WHT", Ms_COLOUR_CODE_WHITE); ("GRN", Ms_COLOUR_CODE_GREEN); ("YLO", Ms_COLOUR_CODE_YELLOW);
    ("YLO1", Ms_COLOUR_CODE_YELLOW1); ("YLO2", Ms_COLOUR_CODE_YELLOW2);
    ("AMB", Ms_COLOUR_CODE_AMBER); ("RED", Ms_COLOUR_CODE_RED);
    ("BLACKBLU+", Ms_COLOUR_CODE_BLACKBLUE_PLUS); ("BLACKBLU", Ms_COLOUR_CODE_BLACKBLUE);
    ("BLACKWHT", Ms_COLOUR_CODE_BLACKWHITE); ("BLACKGRN", Ms_COLOUR_CODE_BLACKGREEN);
    ("BLACKYLO", Ms_COLOUR_CODE_BLACKYELLOW); ("BLACKYLO1", Ms_COLOUR_CODE_BLACKYELLOW1);
    ("BLACKYLO2", Ms_COLOUR_CODE_BLACKYELLOW2); ("BLACKAMB", Ms_COLOUR_CODE_BLACKAMBER);
    ("BLACKRED", Ms_COLOUR_CODE_BLACKRED)].
Definition rgx_sunshine : re := Eval vm_compute in rx "98(\d\d\d)".       (* 6575 *)
Definition rgx_correction : re := Eval vm_compute in rx "CC([A-Z])".      (* 6576 *)
Definition rgx_issuer : re := Eval vm_compute in rx "F([NS])(\d\d\d\d\d)". (* 6578 *)
(** 6570-6631 *)
Definition MiscGroup_parse (group : string) (part : ReportPart) (md : ReportMetadata)
  : res (option MiscGroup) :=
  let metar := is_part part RP_METAR in
  let taf := is_part part RP_TAF in
  let rmk := is_part part RP_RMK in
  or_else (if metar || rmk then
             match Misc_parseColourCode group with
             | Some c => Ok (Some (mkMisc c None MsI_NONE))
             | None => Ok None
             end
           else Ok None) (
  or_else (if taf then
             match regex_match rgx_issuer group with
             | Some m =>
               let! n := stoi (mstr m 2) in
               Ok (Some (mkMisc (if seqb (mstr m 1) "N" then Ms_ISSUER_ID_FN else Ms_ISSUER_ID_FS)
                           (Some (f32_of_N n)) MsI_NONE))
             | None => Ok None
             end
           else Ok None) (
  or_else (if metar then
             match regex_match rgx_correction group with
             | Some m =>
               let! c := sget (mstr m 1) 0 in
               Ok (Some (mkMisc Ms_CORRECTED_WEATHER_OBSERVATION
                           (Some (f32_of_Z (Z.of_N (code c) - 65 + 1)%Z)) MsI_NONE))
             | None => Ok None
             end
           else Ok None) (
  if rmk then
    if seqb group "GR" then Ok (Some (mkMisc Ms_HAILSTONE_SIZE None MsI_GR)) else
    if seqb group "DENSITY" then Ok (Some (mkMisc Ms_DENSITY_ALTITUDE None MsI_DENSITY)) else
    match regex_match rgx_sunshine group with
    | Some m =>
      let! n := stoi (mstr m 1) in
      Ok (Some (mkMisc Ms_SUNSHINE_DURATION_MINUTES (Some (f32_of_N n)) MsI_NONE))
    | None =>
      if seqb group "FROIN" then Ok (Some (mkMisc Ms_FROIN None MsI_NONE)) else Ok None
    end
  else Ok None))).
(** 6695-6706; [None] when the function returns false *)
Definition Misc_appendHailstoneFraction (g : MiscGroup) (group : string) : option MiscGroup :=
  let value := opt_default (ms_data g) (f32_of_Z 0) in
  let add (d : flt) := Some (mkMisc (ms_type g) (Some (to32 (f64_add (to64 value) d))) MsI_NONE) in
  if seqb group "1/4" then add (dlit 25 100) else
  if seqb group "1/2" || seqb group "2/4" then add (dlit 5 10) else
  if seqb group "3/4" then add (dlit 75 100) else
  None.
(** 6708-6719 *)
Definition Misc_appendDensityAltitude (g : MiscGroup) (group : string) : res (option MiscGroup) :=
  if Nat.ltb (slen group) 3 then Ok None else
  let! groupUnitStr := substr_from group (slen group - 2) in
  if negb (seqb groupUnitStr "FT") then Ok None else
  let? val := strToUint group 0 (slen group - 2) in
  Ok (Some (mkMisc (ms_type g) (Some (f32_of_N val)) MsI_NONE)).
(** 6633-6671 *)
Definition MiscGroup_append (g : MiscGroup) (group : string) (part : ReportPart)
  (md : ReportMetadata) : res (MiscGroup * AppendResult) :=
  let invalid := Ok (g, GROUP_INVALIDATED) in
  let fraction := match Misc_appendHailstoneFraction g group with
                  | Some g' => Ok (g', APPENDED)
                  | None => invalid
                  end in
  match ms_inc g with
  | MsI_NONE => Ok (g, NOT_APPENDED)
  | MsI_DENSITY =>
    if seqb group "ALT" then Ok (mkMisc (ms_type g) (ms_data g) MsI_DENSITY_ALT, APPENDED)
    else invalid
  | MsI_DENSITY_ALT =>
    if seqb group "MISG" then Ok (mkMisc (ms_type g) (ms_data g) MsI_NONE, APPENDED) else
    let! o := Misc_appendDensityAltitude g group in
    match o with
    | Some g' => Ok (g', APPENDED)
    | None => invalid
    end
  | MsI_GR =>
    if Nat.eqb (slen group) 1 then
      let! c := sget group 0 in
      if (49 <=? code c) && (code c <=? 57)
      then Ok (mkMisc (ms_type g) (Some (f32_of_N (code c - 48))) MsI_GR_INT, APPENDED)
      else fraction
    else fraction
  | MsI_GR_INT => fraction
  end.

(* ------------------------------------------------------------------ *)
(** ** UnknownGroup (2041-2059) *)

Record UnknownGroup := mkUnknown {}.
Definition UnknownGroup_isValid (g : UnknownGroup) : bool := true.        (* 2058 *)
(** 2044-2050 *)
Definition UnknownGroup_parse (group : string) (part : ReportPart) (md : ReportMetadata)
  : res (option UnknownGroup) := Ok (Some mkUnknown).
(** 2051-2057 *)
Definition UnknownGroup_append (g : UnknownGroup) (group : string) (part : ReportPart)
  (md : ReportMetadata) : res (UnknownGroup * AppendResult) := Ok (g, APPENDED).
