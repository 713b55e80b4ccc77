(** WeatherPhenomena and CloudType (metaf.hpp 576-818, 3733-4129). Definitions only. *)

From Verif Require Import Prim Regex Float Values.
Local Open Scope string_scope.
Local Open Scope N_scope.

(** First entry of a table with the given key: a chain of [if (s == "...") return ...;]. *)
Fixpoint lookup {A : Type} (s : string) (t : list (string * A)) : option A :=
  match t with
  | [] => None
  | (k, v) :: t' => if seqb s k then Some v else lookup s t'
  end.

(* ------------------------------------------------------------------ *)
(** ** WeatherPhenomena (576-764, 3733-4049) *)

(** Enumerations 578-626. The value of an enumeration read back from a bit field by static_cast
    may be a number which is no enumerator: constructor [.._other]. *)
Inductive WpQualifier := Q_NONE | Q_RECENT | Q_VICINITY | Q_LIGHT | Q_MODERATE | Q_HEAVY
| Q_other (n : N).
Inductive WpDescriptor := D_NONE | D_SHALLOW | D_PARTIAL | D_PATCHES | D_LOW_DRIFTING | D_BLOWING
| D_SHOWERS | D_THUNDERSTORM | D_FREEZING | D_other (n : N).
Inductive WpWeather := W_NOT_REPORTED | W_DRIZZLE | W_RAIN | W_SNOW | W_SNOW_GRAINS
| W_ICE_CRYSTALS | W_ICE_PELLETS | W_HAIL | W_SMALL_HAIL | W_UNDETERMINED | W_MIST | W_FOG
| W_SMOKE | W_VOLCANIC_ASH | W_DUST | W_SAND | W_HAZE | W_SPRAY | W_DUST_WHIRLS | W_SQUALLS
| W_FUNNEL_CLOUD | W_SANDSTORM | W_DUSTSTORM | W_other (n : N).
Inductive WpEvent := Ev_NONE | Ev_BEGINNING | Ev_ENDING | Ev_other (n : N).
Scheme Equality for WpQualifier.
Scheme Equality for WpDescriptor.
Scheme Equality for WpWeather.
Scheme Equality for WpEvent.

(** static_cast<uint32_t>(enumerator), declaration order 578-626 *)
Definition q_code (q : WpQualifier) : N :=
  match q with
  | Q_NONE => 0 | Q_RECENT => 1 | Q_VICINITY => 2 | Q_LIGHT => 3 | Q_MODERATE => 4 | Q_HEAVY => 5
  | Q_other n => n
  end.
Definition d_code (d : WpDescriptor) : N :=
  match d with
  | D_NONE => 0 | D_SHALLOW => 1 | D_PARTIAL => 2 | D_PATCHES => 3 | D_LOW_DRIFTING => 4
  | D_BLOWING => 5 | D_SHOWERS => 6 | D_THUNDERSTORM => 7 | D_FREEZING => 8 | D_other n => n
  end.
Definition w_code (w : WpWeather) : N :=
  match w with
  | W_NOT_REPORTED => 0 | W_DRIZZLE => 1 | W_RAIN => 2 | W_SNOW => 3 | W_SNOW_GRAINS => 4
  | W_ICE_CRYSTALS => 5 | W_ICE_PELLETS => 6 | W_HAIL => 7 | W_SMALL_HAIL => 8
  | W_UNDETERMINED => 9 | W_MIST => 10 | W_FOG => 11 | W_SMOKE => 12 | W_VOLCANIC_ASH => 13
  | W_DUST => 14 | W_SAND => 15 | W_HAZE => 16 | W_SPRAY => 17 | W_DUST_WHIRLS => 18
  | W_SQUALLS => 19 | W_FUNNEL_CLOUD => 20 | W_SANDSTORM => 21 | W_DUSTSTORM => 22
  | W_other n => n
  end.
Definition e_code (e : WpEvent) : N :=
  match e with Ev_NONE => 0 | Ev_BEGINNING => 1 | Ev_ENDING => 2 | Ev_other n => n end.
(** static_cast<Enum>(number) *)
Definition q_of (n : N) : WpQualifier :=
  match nth_error [Q_NONE; Q_RECENT; Q_VICINITY; Q_LIGHT; Q_MODERATE; Q_HEAVY] (N.to_nat n) with
  | Some q => q
  | None => Q_other n
  end.
Definition d_of (n : N) : WpDescriptor :=
  match nth_error [D_NONE; D_SHALLOW; D_PARTIAL; D_PATCHES; D_LOW_DRIFTING; D_BLOWING;
                   D_SHOWERS; D_THUNDERSTORM; D_FREEZING] (N.to_nat n) with
  | Some d => d
  | None => D_other n
  end.
Definition w_of (n : N) : WpWeather :=
  match nth_error [W_NOT_REPORTED; W_DRIZZLE; W_RAIN; W_SNOW; W_SNOW_GRAINS; W_ICE_CRYSTALS;
                   W_ICE_PELLETS; W_HAIL; W_SMALL_HAIL; W_UNDETERMINED; W_MIST; W_FOG; W_SMOKE;
                   W_VOLCANIC_ASH; W_DUST; W_SAND; W_HAZE; W_SPRAY; W_DUST_WHIRLS; W_SQUALLS;
                   W_FUNNEL_CLOUD; W_SANDSTORM; W_DUSTSTORM] (N.to_nat n) with
  | Some w => w
  | None => W_other n
  end.
Definition e_of (n : N) : WpEvent :=
  match nth_error [Ev_NONE; Ev_BEGINNING; Ev_ENDING] (N.to_nat n) with
  | Some e => e
  | None => Ev_other n
  end.

(** 659, 685 *)
Record WeatherPhenomena := mkWp { wpData : N; wpTm : option MetafTime }.
Definition WeatherPhenomena_default : WeatherPhenomena := mkWp 0 None.   (* 635 *)

(** (data >> shift) & mask; shifts and masks 662-677 *)
Definition bits (data shift mask : N) : N := N.land (N.shiftr data shift) mask.

(** 3733-3736 *)
Definition Wp_qualifier (w : WeatherPhenomena) : WpQualifier := q_of (bits (wpData w) 0 7).
(** 3738-3741 *)
Definition Wp_descriptor (w : WeatherPhenomena) : WpDescriptor := d_of (bits (wpData w) 3 15).
(** 3743-3763 *)
Definition Wp_weather (w : WeatherPhenomena) : list WpWeather :=
  let data := wpData w in
  let sz := bits data 22 3 in
  ((if 0 <? sz then [w_of (bits data 7 31)] else [])
   ++ (if 1 <? sz then [w_of (bits data 12 31)] else [])
   ++ (if 2 <? sz then [w_of (bits data 17 31)] else []))%list.
(** 3765-3767 *)
Definition Wp_event (w : WeatherPhenomena) : WpEvent := e_of (bits (wpData w) 24 3).

(** 3952-3970; uint32_t shifts truncate modulo 2^32 *)
Definition shl32 (x n : N) : N := u32 (N.shiftl x n).
Definition Wp_pack (q : WpQualifier) (d : WpDescriptor) (wNum : nat) (w1 w2 w3 : WpWeather)
  (e : WpEvent) : N :=
  let wNum := N.of_nat (if Nat.ltb 3 wNum then 3%nat else wNum) in
  N.lor (N.lor (N.lor (N.lor (N.lor (N.lor
    (shl32 (q_code q) 0) (shl32 (d_code d) 3)) (shl32 wNum 22)) (shl32 (w_code w1) 7))
    (shl32 (w_code w2) 12)) (shl32 (w_code w3) 17)) (shl32 (e_code e) 24).
(** 3972-3982; w[i] is guarded by sz >= i+1 *)
Definition Wp_packv (q : WpQualifier) (d : WpDescriptor) (w : list WpWeather) (e : WpEvent)
  : res N :=
  let sz := if Nat.leb (List.length w) 3 then List.length w else 3%nat in
  let! w1 := if Nat.leb 1 sz then deref (nth_error w 0) else Ok W_NOT_REPORTED in
  let! w2 := if Nat.leb 2 sz then deref (nth_error w 1) else Ok W_NOT_REPORTED in
  let! w3 := if Nat.eqb sz 3 then deref (nth_error w 2) else Ok W_NOT_REPORTED in
  Ok (Wp_pack q d (List.length w) w1 w2 w3 e).

(** Constructors 687-690, 691-693, 694-695 *)
Definition Wp_of2 (w1 w2 : WpWeather) (d : WpDescriptor) (q : WpQualifier) : WeatherPhenomena :=
  mkWp (Wp_pack q d 2 w1 w2 W_NOT_REPORTED Ev_NONE) None.
Definition Wp_of1 (w : WpWeather) (d : WpDescriptor) (q : WpQualifier) : WeatherPhenomena :=
  mkWp (Wp_pack q d 1 w W_NOT_REPORTED W_NOT_REPORTED Ev_NONE) None.
Definition Wp_ofD (d : WpDescriptor) (q : WpQualifier) : WeatherPhenomena :=
  mkWp (Wp_pack q d 0 W_NOT_REPORTED W_NOT_REPORTED W_NOT_REPORTED Ev_NONE) None.
(** 642-645 *)
Definition Wp_notReported (recent : bool) : WeatherPhenomena :=
  Wp_of1 W_NOT_REPORTED D_NONE (if recent then Q_RECENT else Q_NONE).

(** 3772-3806 *)
Definition wp_table_plain : list (string * WeatherPhenomena) :=
  [("MIFG", Wp_of1 W_FOG D_SHALLOW Q_NONE);
   ("PRFG", Wp_of1 W_FOG D_PARTIAL Q_NONE);
   ("BCFG", Wp_of1 W_FOG D_PATCHES Q_NONE);
   ("DRDU", Wp_of1 W_DUST D_LOW_DRIFTING Q_NONE);
   ("DRSA", Wp_of1 W_SAND D_LOW_DRIFTING Q_NONE);
   ("DRSN", Wp_of1 W_SNOW D_LOW_DRIFTING Q_NONE);
   ("BLDU", Wp_of1 W_DUST D_BLOWING Q_NONE);
   ("BLSA", Wp_of1 W_SAND D_BLOWING Q_NONE);
   ("BLSN", Wp_of1 W_SNOW D_BLOWING Q_NONE);
   ("BLPY", Wp_of1 W_SPRAY D_BLOWING Q_NONE);
   ("TS", Wp_ofD D_THUNDERSTORM Q_NONE);
   ("FZFG", Wp_of1 W_FOG D_FREEZING Q_NONE);
   ("IC", Wp_of1 W_ICE_CRYSTALS D_NONE Q_NONE);
   ("BR", Wp_of1 W_MIST D_NONE Q_NONE);
   ("FG", Wp_of1 W_FOG D_NONE Q_NONE);
   ("FU", Wp_of1 W_SMOKE D_NONE Q_NONE);
   ("VA", Wp_of1 W_VOLCANIC_ASH D_NONE Q_NONE);
   ("DU", Wp_of1 W_DUST D_NONE Q_NONE);
   ("SA", Wp_of1 W_SAND D_NONE Q_NONE);
   ("HZ", Wp_of1 W_HAZE D_NONE Q_NONE);
   ("PO", Wp_of1 W_DUST_WHIRLS D_NONE Q_NONE);
   ("SQ", Wp_of1 W_SQUALLS D_NONE Q_NONE);
   ("FC", Wp_of1 W_FUNNEL_CLOUD D_NONE Q_NONE);
   ("DS", Wp_of1 W_DUSTSTORM D_NONE Q_NONE);
   ("SS", Wp_of1 W_SANDSTORM D_NONE Q_NONE);
   ("DSSS", Wp_of2 W_DUSTSTORM W_SANDSTORM D_NONE Q_NONE);
   ("SSDS", Wp_of2 W_SANDSTORM W_DUSTSTORM D_NONE Q_NONE)].
(** 3807-3848 *)
Definition wp_table_qualified : list (string * WeatherPhenomena) :=
  [("VCTS", Wp_ofD D_THUNDERSTORM Q_VICINITY);
   ("VCFG", Wp_of1 W_FOG D_NONE Q_VICINITY);
   ("VCSH", Wp_ofD D_SHOWERS Q_VICINITY);
   ("VCPO", Wp_of1 W_DUST_WHIRLS D_NONE Q_VICINITY);
   ("VCVA", Wp_of1 W_VOLCANIC_ASH D_NONE Q_VICINITY);
   ("VCFC", Wp_of1 W_FUNNEL_CLOUD D_NONE Q_VICINITY);
   ("VCBLDU", Wp_of1 W_DUST D_BLOWING Q_VICINITY);
   ("VCBLSA", Wp_of1 W_SAND D_BLOWING Q_VICINITY);
   ("VCBLSN", Wp_of1 W_SNOW D_BLOWING Q_VICINITY);
   ("VCDS", Wp_of1 W_DUSTSTORM D_NONE Q_VICINITY);
   ("VCSS", Wp_of1 W_SANDSTORM D_NONE Q_VICINITY);
   ("+FC", Wp_of1 W_FUNNEL_CLOUD D_NONE Q_HEAVY);
   ("+DS", Wp_of1 W_DUSTSTORM D_NONE Q_HEAVY);
   ("+SS", Wp_of1 W_SANDSTORM D_NONE Q_HEAVY);
   ("+DSSS", Wp_of2 W_DUSTSTORM W_SANDSTORM D_NONE Q_HEAVY);
   ("+SSDS", Wp_of2 W_SANDSTORM W_DUSTSTORM D_NONE Q_HEAVY);
   ("RETS", Wp_ofD D_THUNDERSTORM Q_RECENT)].
(** 3901-3908 *)
Definition wp_table_precip : list (string * WpWeather) :=
  [("DZ", W_DRIZZLE); ("RA", W_RAIN); ("SN", W_SNOW); ("SG", W_SNOW_GRAINS);
   ("PL", W_ICE_PELLETS); ("GR", W_HAIL); ("GS", W_SMALL_HAIL); ("UP", W_UNDETERMINED)].

(** 3925-3938 *)
Definition Wp_isDescriptorShAllowed (w : WpWeather) : bool :=
  match w with
  | W_RAIN | W_SNOW | W_ICE_PELLETS | W_HAIL | W_SMALL_HAIL | W_UNDETERMINED => true
  | _ => false
  end.
(** 3940-3950 *)
Definition Wp_isDescriptorFzAllowed (w : WpWeather) : bool :=
  match w with
  | W_DRIZZLE | W_RAIN | W_UNDETERMINED => true
  | _ => false
  end.

(** State of the loop 3897-3916 *)
Record PrecipSt := mkPrecipSt
  { ps_str : string; ps_weather : list WpWeather; ps_sh : bool; ps_fz : bool }.
(** 3897-3916: at most [n] more iterations; None = return error *)
Fixpoint wp_precip_loop (n : nat) (st : PrecipSt) : res (option PrecipSt) :=
  match n with
  | O => Ok (Some st)
  | S k =>
    if sempty (ps_str st) then Ok (Some st) else
    let! ws := substr (ps_str st) 0 2 in
    match lookup ws wp_table_precip with
    | None => Ok None
    | Some w =>
      if existsb (fun x => WpWeather_beq x w) (ps_weather st) then Ok None else
      let! rest := substr_from (ps_str st) 2 in
      wp_precip_loop k
        (mkPrecipSt rest (ps_weather st ++ [w])%list
           (Wp_isDescriptorShAllowed w || ps_sh st) (Wp_isDescriptorFzAllowed w || ps_fz st))
    end
  end.

(** 3857-3880: qualifier and remaining text *)
Definition wp_qualifier_prefix (s : string) (enableQualifiers : bool)
  : res (WpQualifier * string) :=
  if negb enableQualifiers then Ok (Q_NONE, s) else
  let! c0 := sget s 0 in
  if Ascii.eqb c0 "+" then let! t := substr_from s 1 in Ok (Q_HEAVY, t)
  else if Ascii.eqb c0 "-" then let! t := substr_from s 1 in Ok (Q_LIGHT, t)
  else if Ascii.eqb c0 "R" then
    let! c1 := sget s 1 in
    if Ascii.eqb c1 "E" then let! t := substr_from s 2 in Ok (Q_RECENT, t)
    else Ok (Q_MODERATE, s)
  else Ok (Q_MODERATE, s).

(** 3849-3922 *)
Definition Wp_fromPrecipString (s : string) (enableQualifiers : bool)
  : res (option WeatherPhenomena) :=
  if Nat.ltb (slen s) 2 then Ok None else
  let! qs := wp_qualifier_prefix s enableQualifiers in
  let q := fst qs in
  let precipStr := snd qs in
  if Nat.ltb (slen precipStr) 2 then Ok None else
  let! pre := substr precipStr 0 2 in
  let d := if seqb pre "FZ" then D_FREEZING else
           if seqb pre "TS" then D_THUNDERSTORM else
           if seqb pre "SH" then D_SHOWERS else D_NONE in
  let! precipStr' :=
    if negb (WpDescriptor_beq d D_NONE) then substr_from precipStr 2 else Ok precipStr in
  if Nat.ltb (slen precipStr') 2 || Nat.odd (slen precipStr') then Ok None else
  let? st := wp_precip_loop 3 (mkPrecipSt precipStr' [] false false) in
  if negb (sempty (ps_str st)) then Ok None else
  if negb (ps_sh st) && WpDescriptor_beq d D_SHOWERS then Ok None else
  if negb (ps_fz st) && WpDescriptor_beq d D_FREEZING then Ok None else
  let! data := Wp_packv q d (ps_weather st) Ev_NONE in
  Ok (Some (mkWp data None)).

(** 3769-3923 *)
Definition Wp_fromString (s : string) (enableQualifiers : bool) : res (option WeatherPhenomena) :=
  match lookup s wp_table_plain with
  | Some w => Ok (Some w)
  | None =>
    match (if enableQualifiers then lookup s wp_table_qualified else None) with
    | Some w => Ok (Some w)
    | None => Wp_fromPrecipString s enableQualifiers
    end
  end.

(** 4038-4044: w[i] for i = 0.. up to wSize; reading beyond the vector is undefined behaviour *)
Fixpoint wp_fz_loop (n : nat) (i : nat) (w : list WpWeather) : res bool :=
  match n with
  | O => Ok false
  | S k =>
    let! x := deref (nth_error w i) in
    match x with
    | W_DRIZZLE | W_RAIN | W_UNDETERMINED | W_FOG => Ok true
    | _ => wp_fz_loop k (S i) w
    end
  end.
(** 4027-4049 *)
Definition Wp_isValid (p : WeatherPhenomena) : res bool :=
  let w := Wp_weather p in
  if WpQualifier_beq (Wp_qualifier p) Q_NONE && WpDescriptor_beq (Wp_descriptor p) D_NONE
     && Nat.eqb (List.length w) 0 then Ok false else
  if match wpTm p with Some t => negb (MetafTime_isValid t) | None => false end then Ok false else
  if WpDescriptor_beq (Wp_descriptor p) D_FREEZING then
    let! ok := wp_fz_loop 3 0 w in
    Ok ok
  else Ok true.

(** 3990 *)
Definition rgx_begin_end : re :=
  Eval vm_compute in rx "((?:[A-Z][A-Z]){0,4})([BE])(\d\d)?(\d\d)".
(** 3984-4025. [resultEvent] is uninitialised in the source unless the capture is B or E. *)
Definition Wp_fromWeatherBeginEndString (s : string) (reportTime : MetafTime)
  (previous : WeatherPhenomena) : res (option WeatherPhenomena) :=
  match regex_match rgx_begin_end s with
  | None => Ok None
  | Some m =>
    let phstr := mstr m 1 in
    let? result :=
      if negb (sempty phstr) then Wp_fromString phstr false
      else
        let! v := Wp_isValid previous in
        if negb v then Ok None else Ok (Some previous) in
    let! resultEvent :=
      if seqb (mstr m 2) "E" then Ok Ev_ENDING
      else if seqb (mstr m 2) "B" then Ok Ev_BEGINNING else Bad UB in
    let! data := Wp_packv (Wp_qualifier result) (Wp_descriptor result) (Wp_weather result)
                   resultEvent in
    let! minute := stoi (mstr m 4) in
    let h := mstr m 3 in
    let! hour := if negb (sempty h) then stoi h else Ok (hourValue reportTime) in
    Ok (Some (mkWp data (Some (mkTime None hour minute))))
  end.

(* ------------------------------------------------------------------ *)
(** ** CloudType (766-818, 4053-4129) *)

Inductive CtType := Ct_NOT_REPORTED | Ct_CUMULONIMBUS | Ct_TOWERING_CUMULUS | Ct_CUMULUS
| Ct_CUMULUS_FRACTUS | Ct_STRATOCUMULUS | Ct_NIMBOSTRATUS | Ct_STRATUS | Ct_STRATUS_FRACTUS
| Ct_ALTOSTRATUS | Ct_ALTOCUMULUS | Ct_ALTOCUMULUS_CASTELLANUS | Ct_CIRRUS | Ct_CIRROSTRATUS
| Ct_CIRROCUMULUS | Ct_BLOWING_SNOW | Ct_BLOWING_DUST | Ct_BLOWING_SAND | Ct_ICE_CRYSTALS
| Ct_RAIN | Ct_DRIZZLE | Ct_SNOW | Ct_ICE_PELLETS | Ct_SMOKE | Ct_FOG | Ct_MIST | Ct_HAZE
| Ct_VOLCANIC_ASH.
Scheme Equality for CtType.

Record CloudType := mkCloudType { ctTp : CtType; ctHt : Distance; ctOkt : N }.
Definition CloudType_default : CloudType := mkCloudType Ct_NOT_REPORTED Distance_default 0.
Definition CloudType_isValid (c : CloudType) : bool := (1 <=? ctOkt c) && (ctOkt c <=? 8). (* 805 *)

(** 4095-4111 *)
Definition ct_table : list (string * CtType) :=
  [("CB", Ct_CUMULONIMBUS); ("TCU", Ct_TOWERING_CUMULUS); ("CU", Ct_CUMULUS);
   ("CF", Ct_CUMULUS_FRACTUS); ("SC", Ct_STRATOCUMULUS); ("NS", Ct_NIMBOSTRATUS);
   ("ST", Ct_STRATUS); ("SF", Ct_STRATUS_FRACTUS); ("AS", Ct_ALTOSTRATUS);
   ("AC", Ct_ALTOCUMULUS); ("ACC", Ct_ALTOCUMULUS_CASTELLANUS); ("CI", Ct_CIRRUS);
   ("CS", Ct_CIRROSTRATUS); ("CC", Ct_CIRROCUMULUS)].
Definition CloudType_cloudTypeFromString (s : string) : CtType :=
  match lookup s ct_table with Some t => t | None => Ct_NOT_REPORTED end.
(** 4113-4129 *)
Definition ct_obsc_table : list (string * CtType) :=
  [("BLSN", Ct_BLOWING_SNOW); ("BLDU", Ct_BLOWING_DUST); ("BLSA", Ct_BLOWING_SAND);
   ("IC", Ct_ICE_CRYSTALS); ("RA", Ct_RAIN); ("DZ", Ct_DRIZZLE); ("SN", Ct_SNOW);
   ("PL", Ct_ICE_PELLETS); ("FU", Ct_SMOKE); ("FG", Ct_FOG); ("BR", Ct_MIST); ("HZ", Ct_HAZE);
   ("VA", Ct_VOLCANIC_ASH)].
Definition CloudType_cloudTypeOrObscurationFromString (s : string) : CtType :=
  match lookup s ct_table with
  | Some t => t
  | None => match lookup s ct_obsc_table with Some t => t | None => Ct_NOT_REPORTED end
  end.

(** 4053-4080 *)
Definition CloudType_fromString (s : string) : res (option CloudType) :=
  if sempty s then Ok None else
  let! c0 := sget s 0 in
  if is_digit c0 then
    if negb (Nat.eqb (slen s) 6) && negb (Nat.eqb (slen s) 7) then Ok None else
    let typeStrLen := (slen s - 3 - 1)%nat in
    let! hs := substr_from s (slen s - 3) in
    let? heightValue := Distance_fromHeightString hs in
    if negb (Distance_isReported heightValue) then Ok None else
    let! ts := substr s 1 typeStrLen in
    let typeValue := CloudType_cloudTypeFromString ts in
    if CtType_beq typeValue Ct_NOT_REPORTED then Ok None else
    Ok (Some (mkCloudType typeValue heightValue (code c0 - 48)))
  else
    if Nat.ltb (slen s) 3 then Ok None else
    let! oktaCh := sget s (slen s - 1) in
    if negb (is_digit oktaCh) then Ok None else
    let! ts := substr s 0 (slen s - 1) in
    let typeValue := CloudType_cloudTypeOrObscurationFromString ts in
    if CtType_beq typeValue Ct_NOT_REPORTED then Ok None else
    Ok (Some (mkCloudType typeValue Distance_default (code oktaCh - 48))).

(** 4082-4092 *)
Definition CloudType_fromStringObscuration (s : string) : option CloudType :=
  match lookup s [("BLSN", Ct_BLOWING_SNOW); ("BLDU", Ct_BLOWING_DUST); ("BLSA", Ct_BLOWING_SAND);
                  ("VA", Ct_VOLCANIC_ASH); ("FU", Ct_SMOKE); ("FG", Ct_FOG)] with
  | None => None
  | Some t => Some (mkCloudType t Distance_default 0)
  end.
