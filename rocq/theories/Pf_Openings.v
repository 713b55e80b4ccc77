(** C55: the words that can open each kind of group. *)
From Coq Require Import Lia ZifyBool ZifyN ZifyNat.
From Verif Require Import Prim Lib Regex Float Values Weather Groups1 Groups2 Groups3 Groups4 Parser SpecRegex SpecTokens SpecReads SpecText SpecForm
  SpecReach SpecBuilt SpecAssembled SpecAppend SpecDecimal SpecNumeral SpecMiles SpecDirection SpecNearby SpecTexts.
From Verif Require Import Pf_Ok Pf_OkValues Pf_OkGroups2 Pf_Caps Pf_Regex Pf_Total Pf_Steps Pf_Kinds Pf_View Pf_Decimal Pf_Numeral Pf_Form Pf_Shapes Pf_Decode Pf_Layout
  Pf_Values1 Pf_Values3 Pf_Values5 Pf_Values8 Pf_Texts Pf_Assembled Pf_Grown Pf_Waits Pf_RunwayRange Pf_Visibility.
From Verif Require Import SpecReal SpecScale SpecMinMax SpecReadings SpecAmounts SpecPhenomena SpecWeather SpecCloud.
From Verif Require Import Pf_WindWords Pf_Cloud Pf_Phenomena Pf_Values7 Pf_Temperatures Pf_Whole Pf_Amounts Pf_Disjoint.
Local Open Scope string_scope.

Fixpoint lit (s : string) : re := match s with "" => REps | String c s' => RSeq (RCls [(c, c)]) (lit s') end.
Definition any (l : list re) : re := fold_right RAlt (RCls []) l.
Definition texts (l : list string) : re := any (map lit l).
Definition anything : re := RStar (RCls [(ascii_of_nat 0, ascii_of_nat 255)]).
Lemma lit_lang : forall s, Lang (lit s) s.
Proof.
  induction s as [|c s IH]; [constructor|]. cbn [lit]. change (String c s) with (String c "" ++ s). apply L_seq; [|exact IH]. constructor.
  unfold in_cls, in_range. cbn [existsb fst snd]. rewrite !N.leb_refl. reflexivity.
Qed.
Lemma any_lang : forall l r s, In r l -> Lang r s -> Lang (any l) s.
Proof. induction l as [|a l IH]; intros r s I L; [destruct I|]. destruct I as [<-|I]; [apply L_alt1; exact L|apply L_alt2; exact (IH _ _ I L)]. Qed.
Lemma texts_lang : forall l s, In s l -> Lang (texts l) s.
Proof. intros l s I. apply (any_lang _ (lit s)); [apply in_map; exact I|apply lit_lang]. Qed.
Lemma anything_lang : forall s, Lang anything s.
Proof.
  induction s as [|c s IH]; [apply L_star0|]. change (String c s) with (String c "" ++ s). apply L_star1; [|exact IH]. constructor. destruct c as [[] [] [] [] [] [] [] []]; reflexivity.
Qed.

Definition cloud_kinds : list string := map fst (cloud_codes ++ obscuration_codes).
Definition weather_kinds : list string := ["DZ"; "RA"; "SN"; "SG"; "IC"; "PL"; "GR"; "GS"; "UP"; "BR"; "FG"; "FU"; "VA"; "DU"; "SA"; "HZ"; "PY"; "PO"; "SQ"; "FC"; "SS"; "DS"].
Definition phenomena_words : re :=
  RSeq (ROpt (texts ["RE"; "VC"; "-"; "+"])) (RSeq (ROpt (texts ["MI"; "PR"; "BC"; "DR"; "BL"; "SH"; "TS"; "FZ"])) (RStar (texts weather_kinds))).
Definition event_words : re :=
  RSeq (ROpt (texts ["MI"; "PR"; "BC"; "DR"; "BL"; "SH"; "TS"; "FZ"])) (RSeq (RStar (texts weather_kinds)) (rx "[BE](?:\d\d)?\d\d")).
Definition sky_words : re := RSeq (texts ["FEW"; "SCT"; "BKN"; "OVC"; "VV"; "///"]) (rx "(\d\d\d|///)([CT][BC][U]?|///)?").
Definition remark_sky_words : re := RSeq (texts ["FEW"; "SCT"; "BKN"; "OVC"]) (rx "(\d\d\d)?").
Definition colour_words : list string := map fst colours.
Definition vicinity_words : list string := map fst vc_table.
Definition visibility_words : list re := Eval vm_compute in [rx "\d"; rx "\d\d"; rgx_vismeters; rx "([PM])?(\d?\d)(?:/(\d?\d))?SM|////SM"].
Definition runway_state_words : re := Eval vm_compute in rx "(R\d\d[RCL]?)/(?:(SNOCLO)|((\d\d)?D)|(?:([0-9/])([0-9/])(\d\d|//)|(CLRD))(\d\d|//))".
Definition pressure_words : re := Eval vm_compute in rx "([QA])(?:(\d\d\d\d)|////)".
Definition lowest_words : re := Eval vm_compute in rx "QNH(\d\d\d\d)INS".
Definition slp_words : re := Eval vm_compute in rx "SLP(\d\d\d)".
Definition qfe_words : re := Eval vm_compute in rx "QFE(\d\d\d)(/\d\d\d\d)?".
Definition cloud_height_words : re := Eval vm_compute in rx "\d[A-Z]{2,3}\d\d\d".
Definition cloud_run_words : re := RSeq (texts cloud_kinds) (rx "\d(?:[A-Z]{2,4}\d)*").
Definition opening (part : ReportPart) (kind : nat) : re :=
  match part, kind with
  | RP_UNKNOWN, 0 => texts ["$"]
  | RP_HEADER, 0 => texts ["METAR"; "SPECI"; "TAF"; "AMD"; "COR"; "NIL"; "CNL"; "$"]
  | RP_HEADER, 1 => rgx_location
  | RP_HEADER, 2 => rgx_reporttime
  | RP_HEADER, 3 => rgx_timespan
  | RP_METAR, 0 => texts ["COR"; "NIL"; "CNL"; "AUTO"; "CAVOK"; "RMK"; "$"]
  | RP_METAR, 3 => any [texts ["BECMG"; "TEMPO"; "INTER"; "NOSIG"]; rgx_trendtime; rgx_timespan]
  | RP_METAR, 4 => any [texts ["WS"]; rgx_varwind; rgx_wind]
  | RP_METAR, 5 => any (rgx_rvr :: visibility_words)
  | RP_METAR, 6 => any [texts ["NCD"; "NSC"; "CLR"; "SKC"]; sky_words]
  | RP_METAR, 7 => any [texts ["NSW"; "RE//"; "//"]; phenomena_words]
  | RP_METAR, 8 => rgx_temperature
  | RP_METAR, 9 => pressure_words
  | RP_METAR, 10 => any [texts ["SNOCLO"; "R/SNOCLO"]; runway_state_words]
  | RP_METAR, 11 => rgx_seasurface
  | RP_METAR, 13 => rgx_rainfall
  | RP_METAR, 20 => any [texts colour_words; rgx_correction]
  | RP_TAF, 0 => texts ["NIL"; "CNL"; "CAVOK"; "RMK"; "$"]
  | RP_TAF, 3 => any [texts ["BECMG"; "TEMPO"; "INTER"; "PROB30"; "PROB40"]; rgx_timespan; rgx_fm]
  | RP_TAF, 4 => any [texts ["WSCONDS"]; rgx_varwind; rgx_wind]
  | RP_TAF, 5 => any visibility_words
  | RP_TAF, 6 => any [texts ["NCD"; "NSC"; "CLR"; "SKC"]; sky_words]
  | RP_TAF, 7 => any [texts ["NSW"]; phenomena_words]
  | RP_TAF, 9 => lowest_words
  | RP_TAF, 12 => rgx_forecastminmax
  | RP_TAF, 14 => rgx_layer
  | RP_TAF, 20 => rgx_issuer
  | RP_RMK, 0 => texts ["AO1"; "AO2"; "AO1A"; "AO2A"; "NOSPECI"; "$"]
  | RP_RMK, 4 => texts ["WSHFT"; "PK"; "WND"]
  | RP_RMK, 5 => texts ["VIS"; "SFC"; "TWR"; "RVRNO"; "VISNO"; "RVR"]
  | RP_RMK, 6 => any [texts ["CLD"; "CIG"; "CHINO"; "BLSN"; "BLDU"; "BLSA"; "VA"; "FU"; "FG"]; remark_sky_words]
  | RP_RMK, 7 => any [texts ["PWINO"; "TSNO"; "WX"; "TS/LTNG"]; RSeq event_words (RStar event_words)]
  | RP_RMK, 8 => any [texts ["T"; "TD"]; rgx_temperature_rmk]
  | RP_RMK, 9 => any [texts ["SLPNO"; "PRES"]; pressure_words; slp_words; qfe_words]
  | RP_RMK, 12 => any [rgx_6hourly; rgx_24hourly]
  | RP_RMK, 13 => any [texts ["PNO"; "FZRANO"; "ICG"; "PCPN"; "SNINCR"]; rgx_precip]
  | RP_RMK, 15 => any [texts ["PRESRR"; "PRESFR"]; rgx_tendency]
  | RP_RMK, 16 => any [cloud_height_words; cloud_run_words]
  | RP_RMK, 17 => rgx_lmh
  | RP_RMK, 18 => any [texts ["OCNL"; "FRQ"; "CONS"]; RSeq (lit "LTG") anything]
  | RP_RMK, 19 => texts vicinity_words
  | RP_RMK, 20 => any [texts ("GR" :: "DENSITY" :: "FROIN" :: colour_words); rgx_sunshine]
  | _, _ => RCls []
  end.
Definition all_apart (part : ReportPart) : bool :=
  forallb (fun i => forallb (fun j => negb (Nat.ltb i j) || (is_part part RP_RMK && Nat.eqb i 6 && Nat.eqb j 19) || apart (opening part i) (opening part j)) (List.seq 0 21)) (List.seq 0 21).
Lemma openings_apart : forall part, all_apart part = true.
Proof. intros []; vm_compute; reflexivity. Qed.
