(** Specification for C16, C17, C18: words appended to groups, groups that wait for words, and the
    values of groups. *)
From Coq Require Import String List.
From Verif Require Import Prim Regex Float Values Weather Groups1 Groups2 Groups3 Groups4 Parser.
Import ListNotations.
Local Open Scope string_scope.

(** The words that are keywords *)
Definition keywords : list string :=
  ["METAR"; "SPECI"; "TAF"; "AMD"; "NIL"; "CNL"; "COR"; "AUTO"; "CAVOK"; "RMK"; "AO1"; "AO2"; "AO1A"; "AO2A"; "NOSPECI"; "$"].

(** The text of the group has begun and is not complete. *)
Definition waiting (g : Group) : bool :=
  match g with
  | GTrend k => TrType_beq (tr_t k) Tr_PROB
  | GWind k => negb (WiInc_beq (wi_inc k) WiI_NONE) || WiType_beq (wi_type k) Wi_WIND_SHIFT && negb (has_value (wi_evTime k))
  | GVisibility k => negb (ViInc_beq (vi_inc k) ViI_NONE)
  | GCloud k => negb (ClInc_beq (cl_inc k) ClI_NONE)
  | GWeather k => negb (WxInc_beq (wx_inc k) WxI_NONE)
  | GTemperature k => tg_isIncomplete k
  | GPressure k => pg_isIncomplete k
  | GMinMaxTemperature k => mm_isIncomplete k
  | GPrecipitation k => pc_isIncomplete k
      || PcType_beq (pc_type k) Pc_SNOW_INCREASING_RAPIDLY && negb (Precipitation_isReported (pc_amount k))
         && negb (Precipitation_isReported (pc_change k))
  | GLightning k => lt_incomplete k
  | GVicinity k => negb (VcInc_beq (vc_inc k) VcI_NONE)
  | GMisc k => negb (MsInc_beq (ms_inc k) MsI_NONE)
  | _ => false
  end.

(** All public accessors of the two groups return the same, [isValid] excepted. *)
Definition same_values (g h : Group) : Prop :=
  match g, h with
  | GVisibility a, GVisibility b =>
    vi_type a = vi_type b /\ VisibilityGroup_visibility a = VisibilityGroup_visibility b
    /\ VisibilityGroup_minVisibility a = VisibilityGroup_minVisibility b
    /\ VisibilityGroup_maxVisibility a = VisibilityGroup_maxVisibility b
    /\ vi_trend a = vi_trend b /\ vi_rw a = vi_rw b /\ vi_dir a = vi_dir b
    /\ VisibilityGroup_sectorDirections a = VisibilityGroup_sectorDirections b
  | GCloud a, GCloud b =>
    cl_tp a = cl_tp b /\ cl_amnt a = cl_amnt b /\ cl_conv a = cl_conv b
    /\ CloudGroup_height a = CloudGroup_height b /\ CloudGroup_minHeight a = CloudGroup_minHeight b
    /\ CloudGroup_maxHeight a = CloudGroup_maxHeight b
    /\ CloudGroup_verticalVisibility a = CloudGroup_verticalVisibility b
    /\ CloudGroup_cloudType a = CloudGroup_cloudType b /\ cl_rw a = cl_rw b /\ cl_dir a = cl_dir b
  | GVicinity a, GVicinity b =>
    vc_t a = vc_t b /\ vc_dist a = vc_dist b /\ VicinityGroup_directions a = VicinityGroup_directions b
    /\ vc_movDir a = vc_movDir b
  | GVisibility _, _ | GCloud _, _ | GVicinity _, _ => False
  | _, _ => g = h
  end.

(** Some beginnings of groups of several words, with the part of the report they belong to *)
Definition beginnings : list (ReportPart * list string) :=
  map (fun w => (RP_RMK, w))
    [["PK"]; ["PK"; "WND"]; ["WND"]; ["VIS"]; ["SFC"]; ["TWR"]; ["SFC"; "VIS"]; ["TWR"; "VIS"]; ["RVR"];
     ["CIG"]; ["CLD"]; ["FEW"]; ["SCT"]; ["BKN"]; ["OVC"]; ["FEW"; "V"]; ["SCT"; "V"]; ["BKN"; "V"]; ["WX"];
     ["TS/LTNG"]; ["TS/LTNG"; "TEMPO"]; ["T"]; ["TD"]; ["PRES"]; ["PCPN"]; ["ICG"];
     ["FRQ"]; ["OCNL"]; ["CONS"]; ["DENSITY"]; ["DENSITY"; "ALT"]; ["GR"];
     ["TS"]; ["CB"]; ["TCU"]; ["CBMAM"]; ["ACC"]; ["CCSL"]; ["ACSL"]; ["SCSL"]; ["VIRGA"]; ["ROTOR"]; ["ROTOR"; "CLD"]]
  ++ [(RP_METAR, ["WS"]); (RP_METAR, ["WS"; "ALL"])].
(** What a group of the result may consist of although more was to come: a forecast with no more
    than its probability; a wind shift without time; rapidly increasing snow without amounts. *)
Definition left_open (words : list string) : Prop :=
  words = ["PROB30"] \/ words = ["PROB40"] \/ words = ["WSHFT"] \/ words = ["SNINCR"].
