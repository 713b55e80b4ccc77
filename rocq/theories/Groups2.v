(** Group classes Visibility and Cloud (metaf.hpp 1128-1372, 4694-5307). Definitions only. *)

From Verif Require Import Prim Regex Float Values Weather Groups1.
Local Open Scope string_scope.
Local Open Scope N_scope.

(* ------------------------------------------------------------------ *)
(** ** VisibilityGroup (1128-1263, 4694-5048) *)

Inductive ViType := Vi_PREVAILING | Vi_PREVAILING_NDV | Vi_DIRECTIONAL | Vi_RUNWAY | Vi_RVR
| Vi_SURFACE | Vi_TOWER | Vi_SECTOR | Vi_VARIABLE_PREVAILING | Vi_VARIABLE_DIRECTIONAL
| Vi_VARIABLE_RUNWAY | Vi_VARIABLE_RVR | Vi_VARIABLE_SECTOR | Vi_VIS_MISG | Vi_RVR_MISG
| Vi_RVRNO | Vi_VISNO.
Scheme Equality for ViType.
Inductive ViTrend := Vt_NONE | Vt_NOT_REPORTED | Vt_UPWARD | Vt_NEUTRAL | Vt_DOWNWARD.
Scheme Equality for ViTrend.
Inductive ViInc := ViI_NONE | ViI_INTEGER | ViI_VIS | ViI_VIS_INTEGER | ViI_VIS_FRACTION_OR_METERS
| ViI_VIS_VAR_MAX_INT | ViI_VIS_VAR | ViI_VIS_DIR | ViI_VIS_DIR_INTEGER | ViI_VIS_DIR_VAR_MAX_INT
| ViI_SFC_OR_TWR | ViI_SFC_OR_TWR_VIS | ViI_SFC_OR_TWR_VIS_INTEGER | ViI_RVR | ViI_VISNO.
Scheme Equality for ViInc.

(** 1253-1262 *)
Record VisibilityGroup := mkVis
  { vi_type : ViType; vi_vis : Distance; vi_visMax : Distance; vi_trend : ViTrend;
    vi_dir : option Direction; vi_rw : option Runway; vi_secFrom : option Direction;
    vi_secTo : option Direction; vi_inc : ViInc }.
(** 1203 *)
Definition Vis_of (t : ViType) (i : ViInc) : VisibilityGroup :=
  mkVis t Distance_default Distance_default Vt_NONE None None None None i.
Definition Vis_default : VisibilityGroup := Vis_of Vi_PREVAILING ViI_NONE. (* 1176 *)

Definition Vis_setType (g : VisibilityGroup) (t : ViType) : VisibilityGroup :=
  mkVis t (vi_vis g) (vi_visMax g) (vi_trend g) (vi_dir g) (vi_rw g) (vi_secFrom g) (vi_secTo g)
    (vi_inc g).
Definition Vis_setInc (g : VisibilityGroup) (i : ViInc) : VisibilityGroup :=
  mkVis (vi_type g) (vi_vis g) (vi_visMax g) (vi_trend g) (vi_dir g) (vi_rw g) (vi_secFrom g)
    (vi_secTo g) i.
Definition Vis_setVis (g : VisibilityGroup) (d : Distance) : VisibilityGroup :=
  mkVis (vi_type g) d (vi_visMax g) (vi_trend g) (vi_dir g) (vi_rw g) (vi_secFrom g) (vi_secTo g)
    (vi_inc g).
Definition Vis_setVisMax (g : VisibilityGroup) (d : Distance) : VisibilityGroup :=
  mkVis (vi_type g) (vi_vis g) d (vi_trend g) (vi_dir g) (vi_rw g) (vi_secFrom g) (vi_secTo g)
    (vi_inc g).
Definition Vis_setDir (g : VisibilityGroup) (d : option Direction) : VisibilityGroup :=
  mkVis (vi_type g) (vi_vis g) (vi_visMax g) (vi_trend g) d (vi_rw g) (vi_secFrom g) (vi_secTo g)
    (vi_inc g).
Definition Vis_setRw (g : VisibilityGroup) (r : option Runway) : VisibilityGroup :=
  mkVis (vi_type g) (vi_vis g) (vi_visMax g) (vi_trend g) (vi_dir g) r (vi_secFrom g) (vi_secTo g)
    (vi_inc g).
Definition Vis_setSector (g : VisibilityGroup) (a b : Direction) : VisibilityGroup :=
  mkVis (vi_type g) (vi_vis g) (vi_visMax g) (vi_trend g) (vi_dir g) (vi_rw g) (Some a) (Some b)
    (vi_inc g).

(** 1205-1216 *)
Definition Vis_isVariable (t : ViType) : bool :=
  match t with
  | Vi_VARIABLE_PREVAILING | Vi_VARIABLE_DIRECTIONAL | Vi_VARIABLE_RUNWAY | Vi_VARIABLE_RVR
  | Vi_VARIABLE_SECTOR => true
  | _ => false
  end.
(** 1218-1225 *)
Definition Vis_makeVariable (t : ViType) : ViType :=
  match t with
  | Vi_PREVAILING => Vi_VARIABLE_PREVAILING
  | Vi_DIRECTIONAL => Vi_VARIABLE_DIRECTIONAL
  | Vi_SECTOR => Vi_VARIABLE_SECTOR
  | t => t
  end.
(** 1157-1160 *)
Definition VisibilityGroup_visibility (g : VisibilityGroup) : Distance :=
  if Vis_isVariable (vi_type g) then Distance_default else vi_vis g.
(** 1161-1164 *)
Definition VisibilityGroup_minVisibility (g : VisibilityGroup) : Distance :=
  if negb (Vis_isVariable (vi_type g)) then Distance_default else vi_vis g.
(** 1165 *)
Definition VisibilityGroup_maxVisibility (g : VisibilityGroup) : Distance := vi_visMax g.
(** 1168-1172 *)
Definition VisibilityGroup_sectorDirections (g : VisibilityGroup) : res (list Direction) :=
  Direction_sectorCardinalDirToVector
    (opt_default (vi_secFrom g) Direction_default) (opt_default (vi_secTo g) Direction_default).

(** 5029-5035 *)
Definition Vis_trendFromString (s : string) : ViTrend :=
  if seqb s "/" then Vt_NOT_REPORTED else
  if seqb s "U" then Vt_UPWARD else
  if seqb s "N" then Vt_NEUTRAL else
  if seqb s "D" then Vt_DOWNWARD else
  Vt_NONE.

(** The bool-returning append helpers below leave the group unchanged when they return false;
    the model returns [None] then. *)

(** 4894-4904 *)
Definition Vis_appendFractionToIncompleteInteger (g : VisibilityGroup) (group : string)
  (next : ViInc) : res (option VisibilityGroup) :=
  let? v := Distance_fromMileString group false in
  let? a := Distance_fromIntegerAndFraction (VisibilityGroup_visibility g) v in
  Ok (Some (Vis_setInc (Vis_setVis g a) next)).
(** 4907-4922 *)
Definition Vis_appendDirection (g : VisibilityGroup) (group : string) (next : ViInc)
  : res (option VisibilityGroup) :=
  match Direction_fromCardinalString group false false with
  | Some d =>
    let g1 := Vis_setDir g (Some d) in
    let g2 := if ViType_beq (vi_type g1) Vi_PREVAILING then Vis_setType g1 Vi_DIRECTIONAL else g1 in
    Ok (Some (Vis_setInc g2 next))
  | None =>
    match Direction_fromSectorString group with
    | Some (a, b) =>
      let g1 := Vis_setSector g a b in
      let g2 := if ViType_beq (vi_type g1) Vi_PREVAILING then Vis_setType g1 Vi_SECTOR else g1 in
      Ok (Some (Vis_setInc g2 next))
    | None => Ok None
    end
  end.
(** 4924-4932 *)
Definition Vis_appendRunway (g : VisibilityGroup) (group : string) (next : ViInc)
  : res (option VisibilityGroup) :=
  let? r := Runway_fromString group true in
  let g1 := Vis_setRw g (Some r) in
  let g2 := if ViType_beq (vi_type g1) Vi_PREVAILING then Vis_setType g1 Vi_RUNWAY else g1 in
  let g3 := if ViType_beq (vi_type g2) Vi_VARIABLE_PREVAILING
            then Vis_setType g2 Vi_VARIABLE_RUNWAY else g2 in
  Ok (Some (Vis_setInc g3 next)).
(** 4934-4943 *)
Definition Vis_appendInteger (g : VisibilityGroup) (group : string) (next : ViInc)
  : res (option VisibilityGroup) :=
  if sempty group || Nat.ltb 3 (slen group) then Ok None else
  if has_value (sfind "/" group 0) then Ok None else
  if Distance_isReported (vi_vis g) then Ok None else
  let? v := Distance_fromMileString group true in
  Ok (Some (Vis_setInc (Vis_setVis g v) next)).
(** 4945-4958 *)
Definition Vis_appendFraction (g : VisibilityGroup) (group : string) (next : ViInc)
  : res (option VisibilityGroup) :=
  if negb (has_value (sfind "/" group 0)) then Ok None else
  let? v := Distance_fromMileString group true in
  if Distance_isReported (vi_vis g) then
    let? d := Distance_fromIntegerAndFraction (vi_vis g) v in
    Ok (Some (Vis_setInc (Vis_setVis g d) next))
  else Ok (Some (Vis_setInc (Vis_setVis g v) next)).
(** 4960-4972 *)
Definition Vis_appendVariableMaxFraction (g : VisibilityGroup) (group : string) (next : ViInc)
  : res (option VisibilityGroup) :=
  let? fraction := fractionStrToUint group 0 (slen group) in
  let v := Distance_ofFraction (fst fraction) (snd fraction) in
  if negb (Distance_isValue v) then Ok None else
  let? t := Distance_fromIntegerAndFraction (vi_visMax g) v in
  Ok (Some (Vis_setInc (Vis_setVisMax g t) next)).
(** 4974-5001 *)
Definition Vis_appendVariable (g : VisibilityGroup) (group : string)
  (nextIfMaxIsInteger nextIfMaxIsFraction : ViInc) : res (option VisibilityGroup) :=
  match sfind "V" group 0 with
  | None => Ok None
  | Some vPos =>
    if Nat.eqb vPos 0 || Nat.eqb vPos (slen group) then Ok None else
    let maxInteger := negb (has_value (sfind "/" group vPos)) in
    let! mins := substr group 0 vPos in
    let? min := Distance_fromMileString mins true in
    let! maxs := substr_from group (vPos + 1) in
    let? max := Distance_fromMileString maxs true in
    let? v := if Distance_isReported (vi_vis g)
              then Distance_fromIntegerAndFraction (vi_vis g) min
              else Ok (Some min) in
    let g1 := Vis_setVisMax (Vis_setVis g v) max in
    let g2 := Vis_setType g1 (Vis_makeVariable (vi_type g1)) in
    Ok (Some (Vis_setInc g2 (if maxInteger then nextIfMaxIsInteger else nextIfMaxIsFraction)))
  end.
(** 5003-5010 *)
Definition Vis_appendMeters (g : VisibilityGroup) (group : string) (next : ViInc)
  : res (option VisibilityGroup) :=
  let? v := Distance_fromMeterString group in
  if negb (Distance_isReported v) then Ok None else
  Ok (Some (Vis_setInc (Vis_setVis g v) next)).
Definition rgx_varmeters : re := Eval vm_compute in rx "(\d\d\d\d)V(\d\d\d\d)". (* 5013 *)
(** 5012-5027 *)
Definition Vis_appendVariableMeters (g : VisibilityGroup) (group : string) (next : ViInc)
  : res (option VisibilityGroup) :=
  match regex_match rgx_varmeters group with
  | None => Ok None
  | Some m =>
    let? min := Distance_fromMeterString (mstr m 1) in
    let? max := Distance_fromMeterString (mstr m 2) in
    if negb (Distance_isReported min) || negb (Distance_isReported max) then Ok None else
    let g1 := Vis_setVisMax (Vis_setVis g min) max in
    let g2 := Vis_setType g1 (Vis_makeVariable (vi_type g1)) in
    Ok (Some (Vis_setInc g2 next))
  end.

(** 4829-4838 *)
Definition Vis_fromIncompleteInteger (group : string) : res (option VisibilityGroup) :=
  let? g := Vis_appendInteger Vis_default group ViI_NONE in
  if negb (DistModifier_beq (distModifier (VisibilityGroup_visibility g)) DM_NONE) then Ok None else
  Ok (Some (Vis_setInc g ViI_INTEGER)).
Definition rgx_vismeters : re :=
  Eval vm_compute in rx "(\d\d\d\d|////)([NSWE][WED]?[V]?)?".            (* 4844 *)
(** 4840-4861 *)
Definition Vis_fromMeters (group : string) : res (option VisibilityGroup) :=
  match regex_match rgx_vismeters group with
  | None => Ok None
  | Some m =>
    let? v := Distance_fromMeterString (mstr m 1) in
    let d := Direction_fromCardinalString (mstr m 2) false false in
    let t := match d with
             | Some x => if DirType_beq (dirType x) DT_NDV then Vi_PREVAILING_NDV
                         else if Direction_isValue x then Vi_DIRECTIONAL else Vi_PREVAILING
             | None => Vi_PREVAILING
             end in
    Ok (Some (Vis_setType (Vis_setDir (Vis_setVis Vis_default v) d) t))
  end.
Definition rgx_rvr : re := Eval vm_compute in                             (* 4865-4866 *)
  rx "(R\d\d[RCL]?|R//)/(////|[PM]?\d\d\d\d)(?:V([PM]?\d\d\d\d))?(FT/?)?([UND/])?".
(** 4863-4892 *)
Definition Vis_fromRvr (group : string) : res (option VisibilityGroup) :=
  match regex_match rgx_rvr group with
  | None => Ok None
  | Some m =>
    let unitFeet := negb (Nat.eqb (mlen m 4) 0) in
    let noRwy := seqb (mstr m 1) "R//" in
    if noRwy && negb (seqb (mstr m 2) "////") then Ok None else
    if noRwy && seqb (mstr m 5) "/" then Ok None else
    let! runway := Runway_fromString (mstr m 1) false in
    if negb (has_value runway) && negb noRwy then Ok None else
    let? rvr := Distance_fromRvrString (mstr m 2) unitFeet in
    let g := mkVis Vi_RVR rvr Distance_default (Vis_trendFromString (mstr m 5)) None runway
               None None ViI_NONE in
    if negb (Nat.eqb (mlen m 3) 0) then
      let? varRvr := Distance_fromRvrString (mstr m 3) unitFeet in
      Ok (Some (Vis_setVisMax (Vis_setType g Vi_VARIABLE_RVR) varRvr))
    else Ok (Some g)
  end.

(** 4694-4726 *)
Definition VisibilityGroup_parse (group : string) (part : ReportPart) (md : ReportMetadata)
  : res (option VisibilityGroup) :=
  let metar := is_part part RP_METAR in
  let taf := is_part part RP_TAF in
  let rmk := is_part part RP_RMK in
  let r (t : ViType) (i : ViInc) : res (option VisibilityGroup) := Ok (Some (Vis_of t i)) in
  if rmk && seqb group "VIS" then r Vi_PREVAILING ViI_VIS else
  if rmk && seqb group "SFC" then r Vi_SURFACE ViI_SFC_OR_TWR else
  if rmk && seqb group "TWR" then r Vi_TOWER ViI_SFC_OR_TWR else
  if rmk && seqb group "RVRNO" then r Vi_RVRNO ViI_NONE else
  if rmk && seqb group "VISNO" then r Vi_VISNO ViI_VISNO else
  if rmk && seqb group "RVR" then r Vi_RVR_MISG ViI_RVR else
  or_else (if metar || taf then
             or_else (Vis_fromIncompleteInteger group) (
             or_else (Vis_fromMeters group) (
             let? v := Distance_fromMileString group false in
             Ok (Some (Vis_setVis Vis_default v))))
           else Ok None) (
  if metar then Vis_fromRvr group else Ok None).

(** [if (helper(...)) return APPENDED;] *)
Definition try_append {G : Type} (e : res (option G)) (k : res (G * AppendResult))
  : res (G * AppendResult) :=
  let! o := e in
  match o with Some g' => Ok (g', APPENDED) | None => k end.

(** 4728-4827 *)
Definition VisibilityGroup_append (g : VisibilityGroup) (group : string) (part : ReportPart)
  (md : ReportMetadata) : res (VisibilityGroup * AppendResult) :=
  let done := Ok (Vis_setInc g ViI_NONE, NOT_APPENDED) in
  let invalid := Ok (g, GROUP_INVALIDATED) in
  match vi_inc g with
  | ViI_NONE => Ok (g, NOT_APPENDED)
  | ViI_INTEGER => try_append (Vis_appendFractionToIncompleteInteger g group ViI_NONE) invalid
  | ViI_VIS =>
    if seqb group "MISG" then Ok (Vis_setInc (Vis_setType g Vi_VIS_MISG) ViI_NONE, APPENDED) else
    try_append (Vis_appendDirection g group ViI_VIS_DIR) (
    try_append (Vis_appendInteger g group ViI_VIS_INTEGER) (
    try_append (Vis_appendFraction g group ViI_VIS_FRACTION_OR_METERS) (
    try_append (Vis_appendVariable g group ViI_VIS_VAR_MAX_INT ViI_VIS_VAR) (
    try_append (Vis_appendMeters g group ViI_VIS_FRACTION_OR_METERS) (
    try_append (Vis_appendVariableMeters g group ViI_VIS_VAR) invalid)))))
  | ViI_VIS_INTEGER =>
    try_append (Vis_appendVariable g group ViI_VIS_VAR_MAX_INT ViI_VIS_VAR) (
    try_append (Vis_appendFraction g group ViI_VIS_FRACTION_OR_METERS) (
    try_append (Vis_appendRunway g group ViI_NONE) invalid))
  | ViI_VIS_VAR_MAX_INT =>
    try_append (Vis_appendVariableMaxFraction g group ViI_VIS_VAR) (
    try_append (Vis_appendRunway g group ViI_NONE) done)
  | ViI_VIS_VAR => try_append (Vis_appendRunway g group ViI_NONE) done
  | ViI_VIS_FRACTION_OR_METERS => try_append (Vis_appendRunway g group ViI_NONE) invalid
  | ViI_VIS_DIR =>
    try_append (Vis_appendInteger g group ViI_VIS_DIR_INTEGER) (
    try_append (Vis_appendVariable g group ViI_VIS_DIR_VAR_MAX_INT ViI_NONE) (
    try_append (Vis_appendFraction g group ViI_NONE) (
    try_append (Vis_appendVariableMeters g group ViI_NONE) invalid)))
  | ViI_VIS_DIR_INTEGER =>
    try_append (Vis_appendFraction g group ViI_NONE) (
    try_append (Vis_appendVariable g group ViI_VIS_DIR_VAR_MAX_INT ViI_NONE) done)
  | ViI_VIS_DIR_VAR_MAX_INT => try_append (Vis_appendVariableMaxFraction g group ViI_NONE) done
  | ViI_SFC_OR_TWR =>
    if seqb group "VIS" then Ok (Vis_setInc g ViI_SFC_OR_TWR_VIS, APPENDED) else invalid
  | ViI_SFC_OR_TWR_VIS =>
    try_append (Vis_appendInteger g group ViI_SFC_OR_TWR_VIS_INTEGER) (
    try_append (Vis_appendFraction g group ViI_NONE) (
    try_append (Vis_appendMeters g group ViI_NONE) invalid))
  | ViI_SFC_OR_TWR_VIS_INTEGER =>
    try_append (Vis_appendFraction g group ViI_NONE) (
    let! o := Vis_appendVariable g group ViI_NONE ViI_NONE in
    match o with
    | Some g' => Ok (g', GROUP_INVALIDATED)
    | None => done
    end)
  | ViI_RVR =>
    if seqb group "MISG" then Ok (Vis_setInc g ViI_NONE, APPENDED) else invalid
  | ViI_VISNO =>
    try_append (Vis_appendRunway g group ViI_NONE) (
    try_append (Vis_appendDirection g group ViI_NONE) done)
  end.

(** 5038-5048 *)
Definition VisibilityGroup_isValid (g : VisibilityGroup) : bool :=
  let minmax :=
    match Distance_toUnit (vi_visMax g) (distUnit (vi_vis g)) with
    | None => true
    | Some max =>
      match Distance_toUnit (vi_vis g) (distUnit (vi_vis g)) with
      | None => false
      | Some min => negb (flt_ltb max min)
      end
    end in
  minmax && ViInc_beq (vi_inc g) ViI_NONE
  && match vi_dir g with Some d => Direction_isValid d | None => true end
  && match vi_rw g with Some r => Runway_isValid r | None => true end.

(* ------------------------------------------------------------------ *)
(** ** CloudGroup (1265-1372, 5052-5307) *)

Inductive ClType := Cl_NO_CLOUDS | Cl_CLOUD_LAYER | Cl_VERTICAL_VISIBILITY | Cl_CEILING
| Cl_VARIABLE_CEILING | Cl_CHINO | Cl_CLD_MISG | Cl_OBSCURATION.
Scheme Equality for ClType.
Inductive ClAmount := Am_NOT_REPORTED | Am_NCD | Am_NSC | Am_NONE_CLR | Am_NONE_SKC | Am_FEW
| Am_SCATTERED | Am_BROKEN | Am_OVERCAST | Am_OBSCURED | Am_VARIABLE_FEW_SCATTERED
| Am_VARIABLE_SCATTERED_BROKEN | Am_VARIABLE_BROKEN_OVERCAST.
Scheme Equality for ClAmount.
Inductive ClConv := Cv_NONE | Cv_NOT_REPORTED | Cv_TOWERING_CUMULUS | Cv_CUMULONIMBUS.
Scheme Equality for ClConv.
Inductive ClInc := ClI_NONE | ClI_RMK_AMOUNT | ClI_RMK_AMOUNT_V | ClI_CIG | ClI_CIG_NUM | ClI_CHINO
| ClI_CLD | ClI_OBSCURATION.
Scheme Equality for ClInc.
(** 1337-1358; the member [w] (1342), never read or written, is omitted *)
Record CloudGroup := mkCloud
  { cl_tp : ClType; cl_amnt : ClAmount; cl_h : Distance; cl_maxHt : Distance; cl_conv : ClConv;
    cl_rw : option Runway; cl_dir : option Direction; cl_cldTp : CloudType; cl_inc : ClInc }.
(** 1360 and 1361 *)
Definition Cloud_of (t : ClType) (a : ClAmount) (i : ClInc) : CloudGroup :=
  mkCloud t a Distance_default Distance_default Cv_NONE None None CloudType_default i.
Definition heightNotReported : Distance := Distance_ofUnit FEET.         (* 1346 *)

(** 1301-1306 *)
Definition CloudGroup_height (g : CloudGroup) : Distance :=
  match cl_tp g with
  | Cl_CLOUD_LAYER | Cl_CEILING | Cl_OBSCURATION => cl_h g
  | _ => heightNotReported
  end.
(** 1307-1310 *)
Definition CloudGroup_minHeight (g : CloudGroup) : Distance :=
  match cl_tp g with Cl_VARIABLE_CEILING => cl_h g | _ => heightNotReported end.
(** 1311-1314 *)
Definition CloudGroup_maxHeight (g : CloudGroup) : Distance :=
  match cl_tp g with Cl_VARIABLE_CEILING => cl_maxHt g | _ => heightNotReported end.
(** 1315-1318 *)
Definition CloudGroup_verticalVisibility (g : CloudGroup) : Distance :=
  match cl_tp g with Cl_VERTICAL_VISIBILITY => cl_h g | _ => heightNotReported end.
(** 1322-1326; the incomplete-text state is not part of validity *)
Definition CloudGroup_isValid (g : CloudGroup) : bool :=
  match cl_rw g with Some r => Runway_isValid r | None => true end
  && match cl_dir g with Some d => Direction_isValid d | None => true end.

(** 5169-5190 *)
Definition Cloud_amountToMaxOkta (a : ClAmount) : N :=
  match a with
  | Am_FEW => 2
  | Am_SCATTERED | Am_VARIABLE_FEW_SCATTERED => 4
  | Am_VARIABLE_SCATTERED_BROKEN | Am_BROKEN => 7
  | Am_VARIABLE_BROKEN_OVERCAST | Am_OVERCAST | Am_OBSCURED => 8
  | _ => 0
  end.
(** 5192-5203 *)
Definition Cloud_convectiveTypeToCloudTypeType (c : ClConv) : CtType :=
  match c with
  | Cv_TOWERING_CUMULUS => Ct_TOWERING_CUMULUS
  | Cv_CUMULONIMBUS => Ct_CUMULONIMBUS
  | _ => Ct_NOT_REPORTED
  end.
(** 5205-5222 *)
Definition CloudGroup_cloudType (g : CloudGroup) : option CloudType :=
  let cldConvType := Cloud_convectiveTypeToCloudTypeType (cl_conv g) in
  let cldOkta := Cloud_amountToMaxOkta (cl_amnt g) in
  match cl_tp g with
  | Cl_CLOUD_LAYER | Cl_CEILING => Some (mkCloudType cldConvType (CloudGroup_height g) cldOkta)
  | Cl_VARIABLE_CEILING => Some (mkCloudType cldConvType (CloudGroup_minHeight g) cldOkta)
  | Cl_OBSCURATION => Some (cl_cldTp g)
  | _ => None
  end.
(** 5224-5232 *)
Definition Cloud_amountFromString (s : string) : option ClAmount :=
  lookup s [("FEW", Am_FEW); ("SCT", Am_SCATTERED); ("BKN", Am_BROKEN); ("OVC", Am_OVERCAST);
            ("VV", Am_OBSCURED); ("///", Am_NOT_REPORTED)].
(** 5234-5242 *)
Definition Cloud_convectiveTypeFromString (s : string) : option ClConv :=
  lookup s [("", Cv_NONE); ("TCU", Cv_TOWERING_CUMULUS); ("CB", Cv_CUMULONIMBUS);
            ("///", Cv_NOT_REPORTED)].

Definition rgx_cloud : re :=
  Eval vm_compute in rx "([A-Z][A-Z][A-Z]?|///)(\d\d\d|///)([CT][BC][U]?|///)?". (* 5119 *)
(** 5109-5141 *)
Definition Cloud_parseCloudLayerOrVertVis (s : string) : res (option CloudGroup) :=
  let none (a : ClAmount) : res (option CloudGroup) := Ok (Some (Cloud_of Cl_NO_CLOUDS a ClI_NONE)) in
  if seqb s "NCD" then none Am_NCD else
  if seqb s "NSC" then none Am_NSC else
  if seqb s "CLR" then none Am_NONE_CLR else
  if seqb s "SKC" then none Am_NONE_SKC else
  match regex_match rgx_cloud s with
  | None => Ok None
  | Some m =>
    match Cloud_amountFromString (mstr m 1) with
    | None => Ok None
    | Some amount =>
      let? height := Distance_fromHeightString (mstr m 2) in
      match Cloud_convectiveTypeFromString (mstr m 3) with
      | None => Ok None
      | Some cnv =>
        if ClAmount_beq amount Am_OBSCURED && negb (ClConv_beq cnv Cv_NONE) then Ok None else
        Ok (Some (mkCloud
          (if ClAmount_beq amount Am_OBSCURED then Cl_VERTICAL_VISIBILITY else Cl_CLOUD_LAYER)
          amount height Distance_default cnv None None CloudType_default ClI_NONE))
      end
    end
  end.
Definition rgx_varcloud : re := Eval vm_compute in rx "([A-Z][A-Z][A-Z])(\d\d\d)?". (* 5147 *)
(** 5143-5167 *)
Definition Cloud_parseVariableCloudLayer (s : string) : res (option CloudGroup) :=
  match regex_match rgx_varcloud s with
  | None => Ok None
  | Some m =>
    match Cloud_amountFromString (mstr m 1) with
    | None => Ok None
    | Some amount =>
      let mk (h : Distance) := mkCloud Cl_CLOUD_LAYER amount h Distance_default Cv_NONE None None
                                 CloudType_default ClI_RMK_AMOUNT in
      if negb (sempty (mstr m 2)) then
        let? height := Distance_fromHeightString (mstr m 2) in
        Ok (Some (mk height))
      else Ok (Some (mk Distance_default))
    end
  end.

(** 5052-5072 *)
Definition CloudGroup_parse (group : string) (part : ReportPart) (md : ReportMetadata)
  : res (option CloudGroup) :=
  if is_part part RP_METAR || is_part part RP_TAF then Cloud_parseCloudLayerOrVertVis group else
  if is_part part RP_RMK then
    if seqb group "CLD" then Ok (Some (Cloud_of Cl_CLD_MISG Am_NOT_REPORTED ClI_CLD)) else
    if seqb group "CIG" then Ok (Some (Cloud_of Cl_CEILING Am_NOT_REPORTED ClI_CIG)) else
    if seqb group "CHINO" then Ok (Some (Cloud_of Cl_CHINO Am_NOT_REPORTED ClI_CHINO)) else
    match CloudType_fromStringObscuration group with
    | Some ct =>
      Ok (Some (mkCloud Cl_OBSCURATION Am_NOT_REPORTED Distance_default Distance_default Cv_NONE
                  None None ct ClI_OBSCURATION))
    | None => Cloud_parseVariableCloudLayer group
    end
  else Ok None.

Definition Cloud_setInc (g : CloudGroup) (i : ClInc) : CloudGroup :=
  mkCloud (cl_tp g) (cl_amnt g) (cl_h g) (cl_maxHt g) (cl_conv g) (cl_rw g) (cl_dir g)
    (cl_cldTp g) i.

(** 5244-5257 *)
Definition Cloud_appendVariableCloudAmount (g : CloudGroup) (group : string)
  : res (CloudGroup * AppendResult) :=
  match Cloud_amountFromString group with
  | None => Ok (g, GROUP_INVALIDATED)
  | Some a2 =>
    let result :=
      match cl_amnt g, a2 with
      | Am_FEW, Am_SCATTERED => Am_VARIABLE_FEW_SCATTERED
      | Am_SCATTERED, Am_BROKEN => Am_VARIABLE_SCATTERED_BROKEN
      | Am_BROKEN, Am_OVERCAST => Am_VARIABLE_BROKEN_OVERCAST
      | _, _ => Am_NOT_REPORTED
      end in
    if ClAmount_beq result Am_NOT_REPORTED then Ok (g, GROUP_INVALIDATED) else
    Ok (mkCloud (cl_tp g) result (cl_h g) (cl_maxHt g) (cl_conv g) (cl_rw g) (cl_dir g)
          (cl_cldTp g) ClI_NONE, APPENDED)
  end.
Definition rgx_ceiling : re := Eval vm_compute in rx "(\d\d\d)V(\d\d\d)". (* 5266 *)
(** 5259-5279 *)
Definition Cloud_appendCeiling (g : CloudGroup) (group : string)
  : res (CloudGroup * AppendResult) :=
  let! d := Distance_fromHeightString group in
  match d with
  | Some h =>
    if negb (Distance_isReported h) then Ok (g, GROUP_INVALIDATED) else
    Ok (mkCloud (cl_tp g) (cl_amnt g) h (cl_maxHt g) (cl_conv g) (cl_rw g) (cl_dir g)
          (cl_cldTp g) ClI_CIG_NUM, APPENDED)
  | None =>
    match regex_match rgx_ceiling group with
    | None => Ok (g, GROUP_INVALIDATED)
    | Some m =>
      let! minH := Distance_fromHeightString (mstr m 1) in
      match minH with
      | None => Ok (g, GROUP_INVALIDATED)
      | Some h1 =>
        let! maxH := Distance_fromHeightString (mstr m 2) in
        match maxH with
        | None => Ok (g, GROUP_INVALIDATED)
        | Some h2 =>
          Ok (mkCloud Cl_VARIABLE_CEILING (cl_amnt g) h1 h2 (cl_conv g) (cl_rw g) (cl_dir g)
                (cl_cldTp g) ClI_CIG_NUM, APPENDED)
        end
      end
    end
  end.
(** 5281-5288: rw (and dir) are overwritten also when nothing is recognised *)
Definition Cloud_appendRunwayOrCardinalDirection (g : CloudGroup) (group : string)
  : res (CloudGroup * AppendResult) :=
  let! r := Runway_fromString group true in
  match r with
  | Some rw =>
    Ok (mkCloud (cl_tp g) (cl_amnt g) (cl_h g) (cl_maxHt g) (cl_conv g) (Some rw) (cl_dir g)
          (cl_cldTp g) ClI_NONE, APPENDED)
  | None =>
    let d := Direction_fromCardinalString group false false in
    Ok (mkCloud (cl_tp g) (cl_amnt g) (cl_h g) (cl_maxHt g) (cl_conv g) None d
          (cl_cldTp g) ClI_NONE, if has_value d then APPENDED else NOT_APPENDED)
  end.
Definition rgx_obscuration : re := Eval vm_compute in rx "([A-Z][A-Z][A-Z])(\d\d\d)". (* 5291 *)
(** 5290-5307 *)
Definition Cloud_appendObscuration (g : CloudGroup) (group : string)
  : res (CloudGroup * AppendResult) :=
  match regex_match rgx_obscuration group with
  | None => Ok (g, GROUP_INVALIDATED)
  | Some m =>
    let! h := Distance_fromHeightString (mstr m 2) in
    match h with
    | None => Ok (g, GROUP_INVALIDATED)
    | Some h =>
      match Cloud_amountFromString (mstr m 1) with
      | None => Ok (g, GROUP_INVALIDATED)
      | Some a =>
        Ok (mkCloud (cl_tp g) a h (cl_maxHt g) (cl_conv g) (cl_rw g) (cl_dir g)
              (mkCloudType (ctTp (cl_cldTp g)) h (Cloud_amountToMaxOkta a)) ClI_NONE, APPENDED)
      end
    end
  end.

(** 5074-5107 *)
Definition CloudGroup_append (g : CloudGroup) (group : string) (part : ReportPart)
  (md : ReportMetadata) : res (CloudGroup * AppendResult) :=
  match cl_inc g with
  | ClI_NONE => Ok (g, NOT_APPENDED)
  | ClI_RMK_AMOUNT =>
    if negb (seqb group "V") then Ok (g, GROUP_INVALIDATED)
    else Ok (Cloud_setInc g ClI_RMK_AMOUNT_V, APPENDED)
  | ClI_RMK_AMOUNT_V => Cloud_appendVariableCloudAmount g group
  | ClI_CIG => Cloud_appendCeiling g group
  | ClI_CIG_NUM | ClI_CHINO => Cloud_appendRunwayOrCardinalDirection g group
  | ClI_CLD =>
    if negb (seqb group "MISG") then Ok (g, GROUP_INVALIDATED)
    else Ok (Cloud_setInc g ClI_NONE, APPENDED)
  | ClI_OBSCURATION => Cloud_appendObscuration g group
  end.
