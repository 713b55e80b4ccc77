(** C01, C33, C34: nothing undefined happens, whatever the text. *)
From Verif Require Import Prim Regex Float Values Weather Groups1 Groups2 Groups3 Groups4 Parser.
From Verif Require Import SpecReach Pf_Total.
Local Open Scope string_scope.

(** C01: [parse] models out-of-bounds reads, empty optionals, exceptions and loops that do not stop
    as the outcomes [Bad UB], [Bad Throw] and [Bad Fuel]; none of them ever occurs. *)
Theorem C01_parse_returns :
  forall (sgn : bool) (report : string) (groupLimit : nat),
    exists r, parse sgn report groupLimit = Ok r.
Proof. exact parse_returns. Qed.
Print Assumptions C01_parse_returns.

(** The same for each kind of group on its own, for any text, part of the report and metadata ... *)
Theorem C01_every_group_parser_returns :
  forall p (s : string) (part : ReportPart) (md : ReportMetadata),
    In p alternatives -> exists o, p s part md = Ok o.
Proof. exact alternative_returns. Qed.
Print Assumptions C01_every_group_parser_returns.

(** ... and for appending any text to any group that parsing and appending can lead to. *)
Theorem C01_every_append_returns :
  forall (g : Group) (s : string) (part : ReportPart) (md : ReportMetadata),
    Reachable g -> exists g' a, Group_append g s part md = Ok (g', a).
Proof. exact append_returns. Qed.
Print Assumptions C01_every_append_returns.

(** The groups of a result are among these. *)
Theorem C01_result_groups_are_reachable :
  forall (sgn : bool) (report : string) (groupLimit : nat) (r : ParseResult) (i : GroupInfo),
    parse sgn report groupLimit = Ok r -> In i (pr_groups r) -> Reachable (gi_group i).
Proof. exact parse_reachable. Qed.
Print Assumptions C01_result_groups_are_reachable.

(** The outcome [Bad] is not idle in the model: with an unreachable group it does occur. *)
Example C01_nonvacuous :
  length alternatives = 21%nat
  /\ Group_append (GCloudTypes (mkCloudTypes [])) "1CU030" RP_RMK md_default = Bad UB.
Proof. split; vm_compute; reflexivity. Qed.

(** C33 *)
Theorem C33_isValid_of_weather_returns :
  forall p : WeatherPhenomena, WpObtainable p -> exists b, Wp_isValid p = Ok b.
Proof. exact wp_isValid_returns. Qed.
Print Assumptions C33_isValid_of_weather_returns.

Theorem C33_isValid_of_groups_returns :
  forall g : Group, Reachable g -> exists b, Group_isValid g = Ok b.
Proof. exact isValid_returns. Qed.
Print Assumptions C33_isValid_of_groups_returns.

Example C33_nonvacuous :
  (exists p, Wp_fromString "+FZRA" true = Ok (Some p) /\ Wp_isValid p = Ok true)
  /\ (exists data, Wp_packv Q_MODERATE D_FREEZING [W_SNOW; W_HAIL] Ev_NONE = Ok data
       /\ Wp_isValid (mkWp data None) = Bad UB).
Proof. split; eexists; split; vm_compute; reflexivity. Qed.

(** C34: std::array writes beyond the capacity are [Bad UB] in the model, and by
    [C01_every_append_returns] there are none; the sizes stay within the capacities. *)
Theorem C34_weather_group_capacity :
  forall g : WeatherGroup, Reachable (GWeather g) -> (length (wx_w g) <= 20)%nat.
Proof. exact weather_capacity. Qed.
Print Assumptions C34_weather_group_capacity.

Theorem C34_weather_phenomena_capacity :
  forall p : WeatherPhenomena, WpObtainable p -> (length (Wp_weather p) <= 3)%nat.
Proof. exact wp_at_most_three. Qed.
Print Assumptions C34_weather_phenomena_capacity.

Theorem C34_cloud_types_group_capacity :
  forall g : CloudTypesGroup, Reachable (GCloudTypes g) -> (1 <= length (cty_cldTp g) <= 8)%nat.
Proof. exact cloud_types_capacity. Qed.
Print Assumptions C34_cloud_types_group_capacity.

(** Nine cloud types given, eight stored. *)
Example C34_nonvacuous :
  match parse true "METAR ZZZZ 010000Z 00000KT RMK 1CU001 1CU002 1CU003 1CU004 1CU005 1CU006 1CU007 1CU008 1CU009" 100 with
  | Ok r => existsb (fun i => match gi_group i with
      | GCloudTypes g => Nat.eqb (length (cty_cldTp g)) 8 | _ => false end) (pr_groups r)
  | Bad _ => false
  end = true.
Proof. vm_compute. reflexivity. Qed.
