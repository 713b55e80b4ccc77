(** Generated by tools/gen_tests.py from /repo/test/test_windgroup.cpp: the project's own unit tests, run
    against the model. These are tests of the model's fidelity, not properties. *)

From Verif Require Import Prim Regex Float Values Weather Groups1 Groups2 Groups3 Groups4 Parser TestLib.
Local Open Scope string_scope.
Local Open Scope bool_scope.

Definition t_WindGroup_parseSurfaceWindKnotsMetar : option N :=
    step 20 ((WindGroup_parse "18005KT" RP_METAR md_default)) (fun v1 => 
    chk 21 (Ok (has_value v1)) (
    chk 22 (let! v2 := deref v1 in Ok (WiType_beq (wi_type v2) Wi_SURFACE_WIND)) (
    chk 23 (let! v3 := deref v1 in Ok (DirType_beq (dirType (wi_dir v3)) DT_VALUE_DEGREES)) (
    chk 24 (let! v4 := deref v1 in Ok (has_value (Direction_degrees (wi_dir v4)))) (
    chk 25 (let! v5 := deref v1 in let! v6 := deref (Direction_degrees (wi_dir v5)) in Ok (N.eqb v6 180%N)) (
    chk 26 (let! v7 := deref v1 in Ok (has_value (speedValue (wi_speed v7)))) (
    chk 27 (let! v8 := deref v1 in Ok (SpeedUnit_beq (speedUnit (wi_speed v8)) KNOTS)) (
    chk 28 (let! v9 := deref v1 in let! v10 := deref (speedValue (wi_speed v9)) in Ok (N.eqb v10 5%N)) (
    chk 29 (let! v11 := deref v1 in Ok (negb (has_value (speedValue (wi_gust v11))))) (
    chk 30 (let! v12 := deref v1 in Ok (negb (Distance_isReported (wi_height v12)))) (
    chk 31 (let! v13 := deref v1 in Ok (DirType_beq (dirType (wi_vsecBegin v13)) DT_NOT_REPORTED)) (
    chk 32 (let! v14 := deref v1 in Ok (DirType_beq (dirType (wi_vsecEnd v14)) DT_NOT_REPORTED)) (
    chk 33 (let! v15 := deref v1 in Ok (negb (has_value (wi_evTime v15)))) (
    chk 34 (let! v16 := deref v1 in Ok (negb (has_value (wi_rw v16)))) (
    None))))))))))))))).

Definition t_WindGroup_parseSurfaceWindKnotsTaf : option N :=
    step 38 ((WindGroup_parse "18005KT" RP_TAF md_default)) (fun v1 => 
    chk 39 (Ok (has_value v1)) (
    chk 40 (let! v2 := deref v1 in Ok (WiType_beq (wi_type v2) Wi_SURFACE_WIND)) (
    chk 41 (let! v3 := deref v1 in Ok (DirType_beq (dirType (wi_dir v3)) DT_VALUE_DEGREES)) (
    chk 42 (let! v4 := deref v1 in Ok (has_value (Direction_degrees (wi_dir v4)))) (
    chk 43 (let! v5 := deref v1 in let! v6 := deref (Direction_degrees (wi_dir v5)) in Ok (N.eqb v6 180%N)) (
    chk 44 (let! v7 := deref v1 in Ok (has_value (speedValue (wi_speed v7)))) (
    chk 45 (let! v8 := deref v1 in Ok (SpeedUnit_beq (speedUnit (wi_speed v8)) KNOTS)) (
    chk 46 (let! v9 := deref v1 in let! v10 := deref (speedValue (wi_speed v9)) in Ok (N.eqb v10 5%N)) (
    chk 47 (let! v11 := deref v1 in Ok (negb (has_value (speedValue (wi_gust v11))))) (
    chk 48 (let! v12 := deref v1 in Ok (negb (Distance_isReported (wi_height v12)))) (
    chk 49 (let! v13 := deref v1 in Ok (DirType_beq (dirType (wi_vsecBegin v13)) DT_NOT_REPORTED)) (
    chk 50 (let! v14 := deref v1 in Ok (DirType_beq (dirType (wi_vsecEnd v14)) DT_NOT_REPORTED)) (
    chk 51 (let! v15 := deref v1 in Ok (negb (has_value (wi_evTime v15)))) (
    chk 52 (let! v16 := deref v1 in Ok (negb (has_value (wi_rw v16)))) (
    None))))))))))))))).

Definition t_WindGroup_parseSurfaceWindMps : option N :=
    step 56 ((WindGroup_parse "18005MPS" RP_METAR md_default)) (fun v1 => 
    chk 57 (Ok (has_value v1)) (
    chk 58 (let! v2 := deref v1 in Ok (WiType_beq (wi_type v2) Wi_SURFACE_WIND)) (
    chk 59 (let! v3 := deref v1 in Ok (DirType_beq (dirType (wi_dir v3)) DT_VALUE_DEGREES)) (
    chk 60 (let! v4 := deref v1 in Ok (has_value (Direction_degrees (wi_dir v4)))) (
    chk 61 (let! v5 := deref v1 in let! v6 := deref (Direction_degrees (wi_dir v5)) in Ok (N.eqb v6 180%N)) (
    chk 62 (let! v7 := deref v1 in Ok (has_value (speedValue (wi_speed v7)))) (
    chk 63 (let! v8 := deref v1 in Ok (has_value (speedValue (wi_speed v8)))) (
    chk 64 (let! v9 := deref v1 in Ok (SpeedUnit_beq (speedUnit (wi_speed v9)) METERS_PER_SECOND)) (
    chk 65 (let! v10 := deref v1 in let! v11 := deref (speedValue (wi_speed v10)) in Ok (N.eqb v11 5%N)) (
    chk 66 (let! v12 := deref v1 in Ok (negb (has_value (speedValue (wi_gust v12))))) (
    chk 67 (let! v13 := deref v1 in Ok (negb (has_value (wi_evTime v13)))) (
    chk 68 (let! v14 := deref v1 in Ok (negb (has_value (wi_rw v14)))) (
    None))))))))))))).

Definition t_WindGroup_parseSurfaceWindKmh : option N :=
    step 72 ((WindGroup_parse "18005KMH" RP_METAR md_default)) (fun v1 => 
    chk 73 (Ok (has_value v1)) (
    chk 74 (let! v2 := deref v1 in Ok (WiType_beq (wi_type v2) Wi_SURFACE_WIND)) (
    chk 75 (let! v3 := deref v1 in Ok (DirType_beq (dirType (wi_dir v3)) DT_VALUE_DEGREES)) (
    chk 76 (let! v4 := deref v1 in Ok (has_value (Direction_degrees (wi_dir v4)))) (
    chk 77 (let! v5 := deref v1 in let! v6 := deref (Direction_degrees (wi_dir v5)) in Ok (N.eqb v6 180%N)) (
    chk 78 (let! v7 := deref v1 in Ok (has_value (speedValue (wi_speed v7)))) (
    chk 79 (let! v8 := deref v1 in Ok (has_value (speedValue (wi_speed v8)))) (
    chk 80 (let! v9 := deref v1 in Ok (SpeedUnit_beq (speedUnit (wi_speed v9)) KILOMETERS_PER_HOUR)) (
    chk 81 (let! v10 := deref v1 in let! v11 := deref (speedValue (wi_speed v10)) in Ok (N.eqb v11 5%N)) (
    chk 82 (let! v12 := deref v1 in Ok (negb (has_value (speedValue (wi_gust v12))))) (
    chk 83 (let! v13 := deref v1 in Ok (negb (has_value (wi_evTime v13)))) (
    chk 84 (let! v14 := deref v1 in Ok (negb (has_value (wi_rw v14)))) (
    None))))))))))))).

Definition t_WindGroup_parseGusts : option N :=
    step 88 ((WindGroup_parse "18005G10KT" RP_METAR md_default)) (fun v1 => 
    chk 89 (Ok (has_value v1)) (
    chk 90 (let! v2 := deref v1 in Ok (WiType_beq (wi_type v2) Wi_SURFACE_WIND)) (
    chk 91 (let! v3 := deref v1 in Ok (DirType_beq (dirType (wi_dir v3)) DT_VALUE_DEGREES)) (
    chk 92 (let! v4 := deref v1 in Ok (has_value (Direction_degrees (wi_dir v4)))) (
    chk 93 (let! v5 := deref v1 in let! v6 := deref (Direction_degrees (wi_dir v5)) in Ok (N.eqb v6 180%N)) (
    chk 94 (let! v7 := deref v1 in Ok (has_value (speedValue (wi_speed v7)))) (
    chk 95 (let! v8 := deref v1 in Ok (SpeedUnit_beq (speedUnit (wi_speed v8)) KNOTS)) (
    chk 96 (let! v9 := deref v1 in let! v10 := deref (speedValue (wi_speed v9)) in Ok (N.eqb v10 5%N)) (
    chk 97 (let! v11 := deref v1 in Ok (has_value (speedValue (wi_gust v11)))) (
    chk 98 (let! v12 := deref v1 in Ok (SpeedUnit_beq (speedUnit (wi_gust v12)) KNOTS)) (
    chk 99 (let! v13 := deref v1 in let! v14 := deref (speedValue (wi_gust v13)) in Ok (N.eqb v14 10%N)) (
    chk 100 (let! v15 := deref v1 in Ok (negb (Distance_isReported (wi_height v15)))) (
    chk 101 (let! v16 := deref v1 in Ok (DirType_beq (dirType (wi_vsecBegin v16)) DT_NOT_REPORTED)) (
    chk 102 (let! v17 := deref v1 in Ok (DirType_beq (dirType (wi_vsecEnd v17)) DT_NOT_REPORTED)) (
    chk 103 (let! v18 := deref v1 in Ok (negb (has_value (wi_evTime v18)))) (
    chk 104 (let! v19 := deref v1 in Ok (negb (has_value (wi_rw v19)))) (
    None))))))))))))))))).

Definition t_WindGroup_parseSurfaceWindThreeDigits : option N :=
    step 108 ((WindGroup_parse "180102KT" RP_METAR md_default)) (fun v1 => 
    chk 109 (Ok (has_value v1)) (
    chk 110 (let! v2 := deref v1 in Ok (WiType_beq (wi_type v2) Wi_SURFACE_WIND)) (
    chk 111 (let! v3 := deref v1 in Ok (DirType_beq (dirType (wi_dir v3)) DT_VALUE_DEGREES)) (
    chk 112 (let! v4 := deref v1 in Ok (has_value (Direction_degrees (wi_dir v4)))) (
    chk 113 (let! v5 := deref v1 in let! v6 := deref (Direction_degrees (wi_dir v5)) in Ok (N.eqb v6 180%N)) (
    chk 114 (let! v7 := deref v1 in Ok (has_value (speedValue (wi_speed v7)))) (
    chk 115 (let! v8 := deref v1 in Ok (SpeedUnit_beq (speedUnit (wi_speed v8)) KNOTS)) (
    chk 116 (let! v9 := deref v1 in let! v10 := deref (speedValue (wi_speed v9)) in Ok (N.eqb v10 102%N)) (
    chk 117 (let! v11 := deref v1 in Ok (negb (has_value (speedValue (wi_gust v11))))) (
    chk 118 (let! v12 := deref v1 in Ok (negb (Distance_isReported (wi_height v12)))) (
    chk 119 (let! v13 := deref v1 in Ok (DirType_beq (dirType (wi_vsecBegin v13)) DT_NOT_REPORTED)) (
    chk 120 (let! v14 := deref v1 in Ok (DirType_beq (dirType (wi_vsecEnd v14)) DT_NOT_REPORTED)) (
    chk 121 (let! v15 := deref v1 in Ok (negb (has_value (wi_evTime v15)))) (
    chk 122 (let! v16 := deref v1 in Ok (negb (has_value (wi_rw v16)))) (
    None))))))))))))))).

Definition t_WindGroup_parseSurfaceWindGustsThreeDigits : option N :=
    step 126 ((WindGroup_parse "18099G105KT" RP_METAR md_default)) (fun v1 => 
    chk 127 (Ok (has_value v1)) (
    chk 128 (let! v2 := deref v1 in Ok (WiType_beq (wi_type v2) Wi_SURFACE_WIND)) (
    chk 129 (let! v3 := deref v1 in Ok (DirType_beq (dirType (wi_dir v3)) DT_VALUE_DEGREES)) (
    chk 130 (let! v4 := deref v1 in Ok (has_value (Direction_degrees (wi_dir v4)))) (
    chk 131 (let! v5 := deref v1 in let! v6 := deref (Direction_degrees (wi_dir v5)) in Ok (N.eqb v6 180%N)) (
    chk 132 (let! v7 := deref v1 in Ok (has_value (speedValue (wi_speed v7)))) (
    chk 133 (let! v8 := deref v1 in Ok (SpeedUnit_beq (speedUnit (wi_speed v8)) KNOTS)) (
    chk 134 (let! v9 := deref v1 in let! v10 := deref (speedValue (wi_speed v9)) in Ok (N.eqb v10 99%N)) (
    chk 135 (let! v11 := deref v1 in Ok (has_value (speedValue (wi_gust v11)))) (
    chk 136 (let! v12 := deref v1 in Ok (SpeedUnit_beq (speedUnit (wi_gust v12)) KNOTS)) (
    chk 137 (let! v13 := deref v1 in let! v14 := deref (speedValue (wi_gust v13)) in Ok (N.eqb v14 105%N)) (
    chk 138 (let! v15 := deref v1 in Ok (negb (Distance_isReported (wi_height v15)))) (
    chk 139 (let! v16 := deref v1 in Ok (DirType_beq (dirType (wi_vsecBegin v16)) DT_NOT_REPORTED)) (
    chk 140 (let! v17 := deref v1 in Ok (DirType_beq (dirType (wi_vsecEnd v17)) DT_NOT_REPORTED)) (
    chk 141 (let! v18 := deref v1 in Ok (negb (has_value (wi_evTime v18)))) (
    chk 142 (let! v19 := deref v1 in Ok (negb (has_value (wi_rw v19)))) (
    None))))))))))))))))).

Definition t_WindGroup_parseSurfaceWindWindAndGustsThreeDigits : option N :=
    step 146 ((WindGroup_parse "180101G105KT" RP_METAR md_default)) (fun v1 => 
    chk 147 (Ok (has_value v1)) (
    chk 148 (let! v2 := deref v1 in Ok (WiType_beq (wi_type v2) Wi_SURFACE_WIND)) (
    chk 149 (let! v3 := deref v1 in Ok (DirType_beq (dirType (wi_dir v3)) DT_VALUE_DEGREES)) (
    chk 150 (let! v4 := deref v1 in Ok (has_value (Direction_degrees (wi_dir v4)))) (
    chk 151 (let! v5 := deref v1 in let! v6 := deref (Direction_degrees (wi_dir v5)) in Ok (N.eqb v6 180%N)) (
    chk 152 (let! v7 := deref v1 in Ok (has_value (speedValue (wi_speed v7)))) (
    chk 153 (let! v8 := deref v1 in Ok (SpeedUnit_beq (speedUnit (wi_speed v8)) KNOTS)) (
    chk 154 (let! v9 := deref v1 in let! v10 := deref (speedValue (wi_speed v9)) in Ok (N.eqb v10 101%N)) (
    chk 155 (let! v11 := deref v1 in Ok (has_value (speedValue (wi_gust v11)))) (
    chk 156 (let! v12 := deref v1 in Ok (SpeedUnit_beq (speedUnit (wi_gust v12)) KNOTS)) (
    chk 157 (let! v13 := deref v1 in let! v14 := deref (speedValue (wi_gust v13)) in Ok (N.eqb v14 105%N)) (
    chk 158 (let! v15 := deref v1 in Ok (negb (Distance_isReported (wi_height v15)))) (
    chk 159 (let! v16 := deref v1 in Ok (DirType_beq (dirType (wi_vsecBegin v16)) DT_NOT_REPORTED)) (
    chk 160 (let! v17 := deref v1 in Ok (DirType_beq (dirType (wi_vsecEnd v17)) DT_NOT_REPORTED)) (
    chk 161 (let! v18 := deref v1 in Ok (negb (has_value (wi_evTime v18)))) (
    chk 162 (let! v19 := deref v1 in Ok (negb (has_value (wi_rw v19)))) (
    None))))))))))))))))).

Definition t_WindGroup_parseSurfaceWindVariableDirection : option N :=
    step 166 ((WindGroup_parse "VRB05KT" RP_METAR md_default)) (fun v1 => 
    chk 167 (Ok (has_value v1)) (
    chk 168 (let! v2 := deref v1 in Ok (WiType_beq (wi_type v2) Wi_SURFACE_WIND)) (
    chk 169 (let! v3 := deref v1 in Ok (DirType_beq (dirType (wi_dir v3)) DT_VARIABLE)) (
    chk 170 (let! v4 := deref v1 in Ok (has_value (speedValue (wi_speed v4)))) (
    chk 171 (let! v5 := deref v1 in Ok (SpeedUnit_beq (speedUnit (wi_speed v5)) KNOTS)) (
    chk 172 (let! v6 := deref v1 in let! v7 := deref (speedValue (wi_speed v6)) in Ok (N.eqb v7 5%N)) (
    chk 173 (let! v8 := deref v1 in Ok (negb (has_value (speedValue (wi_gust v8))))) (
    chk 174 (let! v9 := deref v1 in Ok (negb (Distance_isReported (wi_height v9)))) (
    chk 175 (let! v10 := deref v1 in Ok (DirType_beq (dirType (wi_vsecBegin v10)) DT_NOT_REPORTED)) (
    chk 176 (let! v11 := deref v1 in Ok (DirType_beq (dirType (wi_vsecEnd v11)) DT_NOT_REPORTED)) (
    chk 177 (let! v12 := deref v1 in Ok (negb (has_value (wi_evTime v12)))) (
    chk 178 (let! v13 := deref v1 in Ok (negb (has_value (wi_rw v13)))) (
    None))))))))))))).

Definition t_WindGroup_parseSurfaceWindNotReported : option N :=
    step 182 ((WindGroup_parse "/////KT" RP_METAR md_default)) (fun v1 => 
    chk 183 (Ok (has_value v1)) (
    chk 184 (let! v2 := deref v1 in Ok (WiType_beq (wi_type v2) Wi_SURFACE_WIND)) (
    chk 185 (let! v3 := deref v1 in Ok (DirType_beq (dirType (wi_dir v3)) DT_NOT_REPORTED)) (
    chk 186 (let! v4 := deref v1 in Ok (negb (has_value (speedValue (wi_speed v4))))) (
    chk 187 (let! v5 := deref v1 in Ok (SpeedUnit_beq (speedUnit (wi_speed v5)) KNOTS)) (
    chk 188 (let! v6 := deref v1 in Ok (negb (has_value (speedValue (wi_gust v6))))) (
    chk 189 (let! v7 := deref v1 in Ok (negb (Distance_isReported (wi_height v7)))) (
    chk 190 (let! v8 := deref v1 in Ok (DirType_beq (dirType (wi_vsecBegin v8)) DT_NOT_REPORTED)) (
    chk 191 (let! v9 := deref v1 in Ok (DirType_beq (dirType (wi_vsecEnd v9)) DT_NOT_REPORTED)) (
    chk 192 (let! v10 := deref v1 in Ok (negb (has_value (wi_evTime v10)))) (
    chk 193 (let! v11 := deref v1 in Ok (negb (has_value (wi_rw v11)))) (
    None)))))))))))).

Definition t_WindGroup_parseSurfaceWindWrongReportPart : option N :=
    chk 197 (let! v1 := (WindGroup_parse "18005KT" RP_UNKNOWN md_default) in Ok (negb (has_value v1))) (
    chk 198 (let! v2 := (WindGroup_parse "18005KT" RP_HEADER md_default) in Ok (negb (has_value v2))) (
    chk 199 (let! v3 := (WindGroup_parse "18005KT" RP_RMK md_default) in Ok (negb (has_value v3))) (
    None))).

Definition t_WindGroup_parseSurfaceWindWrongFormat : option N :=
    chk 203 (let! v1 := (WindGroup_parse "" RP_METAR md_default) in Ok (negb (has_value v1))) (
    chk 204 (let! v2 := (WindGroup_parse "KT" RP_METAR md_default) in Ok (negb (has_value v2))) (
    chk 205 (let! v3 := (WindGroup_parse "18105KT" RP_METAR md_default) in Ok (negb (has_value v3))) (
    chk 206 (let! v4 := (WindGroup_parse "180005KT" RP_METAR md_default) in Ok (negb (has_value v4))) (
    chk 207 (let! v5 := (WindGroup_parse "1805KT" RP_METAR md_default) in Ok (negb (has_value v5))) (
    chk 208 (let! v6 := (WindGroup_parse "18005G5KT" RP_METAR md_default) in Ok (negb (has_value v6))) (
    chk 209 (let! v7 := (WindGroup_parse "18005G005KT" RP_METAR md_default) in Ok (negb (has_value v7))) (
    chk 210 (let! v8 := (WindGroup_parse "18005KTS" RP_METAR md_default) in Ok (negb (has_value v8))) (
    chk 211 (let! v9 := (WindGroup_parse "18005" RP_METAR md_default) in Ok (negb (has_value v9))) (
    chk 212 (let! v10 := (WindGroup_parse "18005Z" RP_METAR md_default) in Ok (negb (has_value v10))) (
    chk 213 (let! v11 := (WindGroup_parse "A8005KT" RP_METAR md_default) in Ok (negb (has_value v11))) (
    chk 214 (let! v12 := (WindGroup_parse "1800AKT" RP_METAR md_default) in Ok (negb (has_value v12))) (
    chk 215 (let! v13 := (WindGroup_parse "VRB5KT" RP_METAR md_default) in Ok (negb (has_value v13))) (
    chk 216 (let! v14 := (WindGroup_parse "VRB015KT" RP_METAR md_default) in Ok (negb (has_value v14))) (
    chk 217 (let! v15 := (WindGroup_parse "VRB5KT" RP_METAR md_default) in Ok (negb (has_value v15))) (
    chk 218 (let! v16 := (WindGroup_parse "VRB05G8KT" RP_METAR md_default) in Ok (negb (has_value v16))) (
    chk 219 (let! v17 := (WindGroup_parse "VRB05G025KT" RP_METAR md_default) in Ok (negb (has_value v17))) (
    chk 220 (let! v18 := (WindGroup_parse "//////KT" RP_METAR md_default) in Ok (negb (has_value v18))) (
    chk 221 (let! v19 := (WindGroup_parse "////KT" RP_METAR md_default) in Ok (negb (has_value v19))) (
    chk 222 (let! v20 := (WindGroup_parse "////" RP_METAR md_default) in Ok (negb (has_value v20))) (
    None)))))))))))))))))))).

Definition t_WindGroup_parseVariableWindSectorMetar : option N :=
    step 232 ((WindGroup_parse "180V240" RP_METAR md_default)) (fun v1 => 
    chk 233 (Ok (has_value v1)) (
    chk 234 (let! v2 := deref v1 in Ok (WiType_beq (wi_type v2) Wi_VARIABLE_WIND_SECTOR)) (
    chk 235 (let! v3 := deref v1 in Ok (DirType_beq (dirType (wi_dir v3)) DT_NOT_REPORTED)) (
    chk 236 (let! v4 := deref v1 in Ok (negb (has_value (speedValue (wi_speed v4))))) (
    chk 237 (let! v5 := deref v1 in Ok (negb (has_value (speedValue (wi_gust v5))))) (
    chk 238 (let! v6 := deref v1 in Ok (negb (Distance_isReported (wi_height v6)))) (
    chk 239 (let! v7 := deref v1 in Ok (DirType_beq (dirType (wi_vsecBegin v7)) DT_VALUE_DEGREES)) (
    chk 240 (let! v8 := deref v1 in Ok (has_value (Direction_degrees (wi_vsecBegin v8)))) (
    chk 241 (let! v9 := deref v1 in let! v10 := deref (Direction_degrees (wi_vsecBegin v9)) in Ok (N.eqb v10 180%N)) (
    chk 242 (let! v11 := deref v1 in Ok (DirType_beq (dirType (wi_vsecEnd v11)) DT_VALUE_DEGREES)) (
    chk 243 (let! v12 := deref v1 in Ok (has_value (Direction_degrees (wi_vsecEnd v12)))) (
    chk 244 (let! v13 := deref v1 in let! v14 := deref (Direction_degrees (wi_vsecEnd v13)) in Ok (N.eqb v14 240%N)) (
    chk 245 (let! v15 := deref v1 in Ok (negb (has_value (wi_evTime v15)))) (
    chk 246 (let! v16 := deref v1 in Ok (negb (has_value (wi_rw v16)))) (
    None))))))))))))))).

Definition t_WindGroup_parseVariableWindSectorTaf : option N :=
    step 250 ((WindGroup_parse "180V240" RP_TAF md_default)) (fun v1 => 
    chk 251 (let! v2 := deref v1 in Ok (WiType_beq (wi_type v2) Wi_VARIABLE_WIND_SECTOR)) (
    chk 252 (Ok (has_value v1)) (
    chk 253 (let! v3 := deref v1 in Ok (DirType_beq (dirType (wi_dir v3)) DT_NOT_REPORTED)) (
    chk 254 (let! v4 := deref v1 in Ok (negb (has_value (speedValue (wi_speed v4))))) (
    chk 255 (let! v5 := deref v1 in Ok (negb (has_value (speedValue (wi_gust v5))))) (
    chk 256 (let! v6 := deref v1 in Ok (negb (Distance_isReported (wi_height v6)))) (
    chk 257 (let! v7 := deref v1 in Ok (DirType_beq (dirType (wi_vsecBegin v7)) DT_VALUE_DEGREES)) (
    chk 258 (let! v8 := deref v1 in Ok (has_value (Direction_degrees (wi_vsecBegin v8)))) (
    chk 259 (let! v9 := deref v1 in let! v10 := deref (Direction_degrees (wi_vsecBegin v9)) in Ok (N.eqb v10 180%N)) (
    chk 260 (let! v11 := deref v1 in Ok (DirType_beq (dirType (wi_vsecEnd v11)) DT_VALUE_DEGREES)) (
    chk 261 (let! v12 := deref v1 in Ok (has_value (Direction_degrees (wi_vsecEnd v12)))) (
    chk 262 (let! v13 := deref v1 in let! v14 := deref (Direction_degrees (wi_vsecEnd v13)) in Ok (N.eqb v14 240%N)) (
    chk 263 (let! v15 := deref v1 in Ok (negb (has_value (wi_evTime v15)))) (
    chk 264 (let! v16 := deref v1 in Ok (negb (has_value (wi_rw v16)))) (
    None))))))))))))))).

Definition t_WindGroup_parseVariableWindSectorWrongReportPart : option N :=
    chk 268 (let! v1 := (WindGroup_parse "180V240" RP_UNKNOWN md_default) in Ok (negb (has_value v1))) (
    chk 269 (let! v2 := (WindGroup_parse "180V240" RP_HEADER md_default) in Ok (negb (has_value v2))) (
    chk 270 (let! v3 := (WindGroup_parse "180V240" RP_RMK md_default) in Ok (negb (has_value v3))) (
    None))).

Definition t_WindGroup_parseVariableWindSectorWrongFormat : option N :=
    chk 274 (let! v1 := (WindGroup_parse "180A240" RP_METAR md_default) in Ok (negb (has_value v1))) (
    chk 275 (let! v2 := (WindGroup_parse "18AV240" RP_METAR md_default) in Ok (negb (has_value v2))) (
    chk 276 (let! v3 := (WindGroup_parse "180V24A" RP_METAR md_default) in Ok (negb (has_value v3))) (
    chk 277 (let! v4 := (WindGroup_parse "181V240" RP_METAR md_default) in Ok (negb (has_value v4))) (
    chk 278 (let! v5 := (WindGroup_parse "180V241" RP_METAR md_default) in Ok (negb (has_value v5))) (
    chk 279 (let! v6 := (WindGroup_parse "0180V240" RP_METAR md_default) in Ok (negb (has_value v6))) (
    chk 280 (let! v7 := (WindGroup_parse "180V0240" RP_METAR md_default) in Ok (negb (has_value v7))) (
    chk 281 (let! v8 := (WindGroup_parse "///V240" RP_METAR md_default) in Ok (negb (has_value v8))) (
    chk 282 (let! v9 := (WindGroup_parse "180V///" RP_METAR md_default) in Ok (negb (has_value v9))) (
    chk 283 (let! v10 := (WindGroup_parse "///V///" RP_METAR md_default) in Ok (negb (has_value v10))) (
    None)))))))))).

Definition t_WindGroup_appendSurfaceWindAndVariableWindSector : option N :=
    step 294 ((WindGroup_parse "18005G10KT" RP_METAR md_default)) (fun v1 => 
    chk 295 (Ok (has_value v1)) (
    step 297 (let! v2 := deref v1 in WindGroup_append v2 "170V190" RP_METAR md_default) (fun p => let v3 := Some (fst p) in let v4 := snd p in 
    chk 297 (Ok (AppendResult_beq v4 APPENDED)) (
    chk 299 (let! v5 := deref v3 in Ok (WiType_beq (wi_type v5) Wi_SURFACE_WIND_WITH_VARIABLE_SECTOR)) (
    chk 301 (let! v6 := deref v3 in Ok (has_value (Direction_degrees (wi_dir v6)))) (
    chk 302 (let! v7 := deref v3 in let! v8 := deref (Direction_degrees (wi_dir v7)) in Ok (N.eqb v8 180%N)) (
    chk 303 (let! v9 := deref v3 in Ok (has_value (speedValue (wi_speed v9)))) (
    chk 304 (let! v10 := deref v3 in Ok (SpeedUnit_beq (speedUnit (wi_speed v10)) KNOTS)) (
    chk 305 (let! v11 := deref v3 in let! v12 := deref (speedValue (wi_speed v11)) in Ok (N.eqb v12 5%N)) (
    chk 306 (let! v13 := deref v3 in Ok (has_value (speedValue (wi_gust v13)))) (
    chk 307 (let! v14 := deref v3 in Ok (SpeedUnit_beq (speedUnit (wi_gust v14)) KNOTS)) (
    chk 308 (let! v15 := deref v3 in let! v16 := deref (speedValue (wi_gust v15)) in Ok (N.eqb v16 10%N)) (
    chk 309 (let! v17 := deref v3 in Ok (negb (Distance_isReported (wi_height v17)))) (
    chk 310 (let! v18 := deref v3 in Ok (DirType_beq (dirType (wi_vsecBegin v18)) DT_VALUE_DEGREES)) (
    chk 311 (let! v19 := deref v3 in Ok (has_value (Direction_degrees (wi_vsecBegin v19)))) (
    chk 312 (let! v20 := deref v3 in let! v21 := deref (Direction_degrees (wi_vsecBegin v20)) in Ok (N.eqb v21 170%N)) (
    chk 313 (let! v22 := deref v3 in Ok (DirType_beq (dirType (wi_vsecEnd v22)) DT_VALUE_DEGREES)) (
    chk 314 (let! v23 := deref v3 in Ok (has_value (Direction_degrees (wi_vsecEnd v23)))) (
    chk 315 (let! v24 := deref v3 in let! v25 := deref (Direction_degrees (wi_vsecEnd v24)) in Ok (N.eqb v25 190%N)) (
    chk 316 (let! v26 := deref v3 in Ok (negb (has_value (wi_evTime v26)))) (
    chk 317 (let! v27 := deref v3 in Ok (negb (has_value (wi_rw v27)))) (
    None)))))))))))))))))))))).

Definition t_WindGroup_appendSurfaceWindAndOther : option N :=
    step 321 ((WindGroup_parse "18005G10KT" RP_METAR md_default)) (fun v1 => 
    chk 322 (Ok (has_value v1)) (
    step 324 (let! v2 := deref v1 in WindGroup_append v2 "WS020/18025KT" RP_METAR md_default) (fun p => let v3 := Some (fst p) in let v4 := snd p in 
    chk 324 (Ok (AppendResult_beq v4 NOT_APPENDED)) (
    step 326 (let! v5 := deref v3 in WindGroup_append v5 "WSHIFT" RP_METAR md_default) (fun p => let v6 := Some (fst p) in let v7 := snd p in 
    chk 326 (Ok (AppendResult_beq v7 NOT_APPENDED)) (
    step 328 (let! v8 := deref v6 in WindGroup_append v8 "FROPA" RP_METAR md_default) (fun p => let v9 := Some (fst p) in let v10 := snd p in 
    chk 328 (Ok (AppendResult_beq v10 NOT_APPENDED)) (
    step 330 (let! v11 := deref v9 in WindGroup_append v11 "2119" RP_METAR md_default) (fun p => let v12 := Some (fst p) in let v13 := snd p in 
    chk 330 (Ok (AppendResult_beq v13 NOT_APPENDED)) (
    step 332 (let! v14 := deref v12 in WindGroup_append v14 "19" RP_METAR md_default) (fun p => let v15 := Some (fst p) in let v16 := snd p in 
    chk 332 (Ok (AppendResult_beq v16 NOT_APPENDED)) (
    step 334 (let! v17 := deref v15 in WindGroup_append v17 "FROPA" RP_METAR md_default) (fun p => let v18 := Some (fst p) in let v19 := snd p in 
    chk 334 (Ok (AppendResult_beq v19 NOT_APPENDED)) (
    step 336 (let! v20 := deref v18 in WindGroup_append v20 "PK" RP_METAR md_default) (fun p => let v21 := Some (fst p) in let v22 := snd p in 
    chk 336 (Ok (AppendResult_beq v22 NOT_APPENDED)) (
    step 338 (let! v23 := deref v21 in WindGroup_append v23 "WND" RP_METAR md_default) (fun p => let v24 := Some (fst p) in let v25 := snd p in 
    chk 338 (Ok (AppendResult_beq v25 NOT_APPENDED)) (
    step 340 (let! v26 := deref v24 in WindGroup_append v26 "31027/2119" RP_METAR md_default) (fun p => let v27 := Some (fst p) in let v28 := snd p in 
    chk 340 (Ok (AppendResult_beq v28 NOT_APPENDED)) (
    step 342 (let! v29 := deref v27 in WindGroup_append v29 "31027/19" RP_METAR md_default) (fun p => let v30 := Some (fst p) in let v31 := snd p in 
    chk 342 (Ok (AppendResult_beq v31 NOT_APPENDED)) (
    step 344 (let! v32 := deref v30 in WindGroup_append v32 "/////KT" RP_UNKNOWN md_default) (fun p => let v33 := Some (fst p) in let v34 := snd p in 
    chk 344 (Ok (AppendResult_beq v34 NOT_APPENDED)) (
    step 346 (let! v35 := deref v33 in WindGroup_append v35 "WSCONDS" RP_METAR md_default) (fun p => let v36 := Some (fst p) in let v37 := snd p in 
    chk 346 (Ok (AppendResult_beq v37 NOT_APPENDED)) (
    step 348 (let! v38 := deref v36 in WindGroup_append v38 "WS" RP_METAR md_default) (fun p => let v39 := Some (fst p) in let v40 := snd p in 
    chk 348 (Ok (AppendResult_beq v40 NOT_APPENDED)) (
    step 350 (let! v41 := deref v39 in WindGroup_append v41 "ALL" RP_METAR md_default) (fun p => let v42 := Some (fst p) in let v43 := snd p in 
    chk 350 (Ok (AppendResult_beq v43 NOT_APPENDED)) (
    step 352 (let! v44 := deref v42 in WindGroup_append v44 "RWY" RP_METAR md_default) (fun p => let v45 := Some (fst p) in let v46 := snd p in 
    chk 352 (Ok (AppendResult_beq v46 NOT_APPENDED)) (
    step 354 (let! v47 := deref v45 in WindGroup_append v47 "R32" RP_METAR md_default) (fun p => let v48 := Some (fst p) in let v49 := snd p in 
    chk 354 (Ok (AppendResult_beq v49 NOT_APPENDED)) (
    chk 357 (let! v50 := deref v48 in Ok (WiType_beq (wi_type v50) Wi_SURFACE_WIND)) (
    chk 358 (let! v51 := deref v48 in Ok (DirType_beq (dirType (wi_dir v51)) DT_VALUE_DEGREES)) (
    chk 359 (let! v52 := deref v48 in Ok (has_value (Direction_degrees (wi_dir v52)))) (
    chk 360 (let! v53 := deref v48 in let! v54 := deref (Direction_degrees (wi_dir v53)) in Ok (N.eqb v54 180%N)) (
    chk 361 (let! v55 := deref v48 in Ok (has_value (speedValue (wi_speed v55)))) (
    chk 362 (let! v56 := deref v48 in Ok (SpeedUnit_beq (speedUnit (wi_speed v56)) KNOTS)) (
    chk 363 (let! v57 := deref v48 in let! v58 := deref (speedValue (wi_speed v57)) in Ok (N.eqb v58 5%N)) (
    chk 364 (let! v59 := deref v48 in Ok (has_value (speedValue (wi_gust v59)))) (
    chk 365 (let! v60 := deref v48 in Ok (SpeedUnit_beq (speedUnit (wi_gust v60)) KNOTS)) (
    chk 366 (let! v61 := deref v48 in let! v62 := deref (speedValue (wi_gust v61)) in Ok (N.eqb v62 10%N)) (
    chk 367 (let! v63 := deref v48 in Ok (negb (Distance_isReported (wi_height v63)))) (
    chk 368 (let! v64 := deref v48 in Ok (DirType_beq (dirType (wi_vsecBegin v64)) DT_NOT_REPORTED)) (
    chk 369 (let! v65 := deref v48 in Ok (DirType_beq (dirType (wi_vsecEnd v65)) DT_NOT_REPORTED)) (
    chk 370 (let! v66 := deref v48 in Ok (negb (has_value (wi_evTime v66)))) (
    chk 371 (let! v67 := deref v48 in Ok (negb (has_value (wi_rw v67)))) (
    None))))))))))))))))))))))))))))))))))))))))))))))))).

Definition t_WindGroup_appendVariableWindSectorAndOther : option N :=
    step 375 ((WindGroup_parse "170V190" RP_METAR md_default)) (fun v1 => 
    chk 376 (Ok (has_value v1)) (
    step 378 (let! v2 := deref v1 in WindGroup_append v2 "18005G10KT" RP_METAR md_default) (fun p => let v3 := Some (fst p) in let v4 := snd p in 
    chk 378 (Ok (AppendResult_beq v4 NOT_APPENDED)) (
    step 380 (let! v5 := deref v3 in WindGroup_append v5 "WS020/18025KT" RP_METAR md_default) (fun p => let v6 := Some (fst p) in let v7 := snd p in 
    chk 380 (Ok (AppendResult_beq v7 NOT_APPENDED)) (
    step 382 (let! v8 := deref v6 in WindGroup_append v8 "170V190" RP_METAR md_default) (fun p => let v9 := Some (fst p) in let v10 := snd p in 
    chk 382 (Ok (AppendResult_beq v10 NOT_APPENDED)) (
    step 384 (let! v11 := deref v9 in WindGroup_append v11 "WSHIFT" RP_METAR md_default) (fun p => let v12 := Some (fst p) in let v13 := snd p in 
    chk 384 (Ok (AppendResult_beq v13 NOT_APPENDED)) (
    step 386 (let! v14 := deref v12 in WindGroup_append v14 "FROPA" RP_METAR md_default) (fun p => let v15 := Some (fst p) in let v16 := snd p in 
    chk 386 (Ok (AppendResult_beq v16 NOT_APPENDED)) (
    step 388 (let! v17 := deref v15 in WindGroup_append v17 "2119" RP_METAR md_default) (fun p => let v18 := Some (fst p) in let v19 := snd p in 
    chk 388 (Ok (AppendResult_beq v19 NOT_APPENDED)) (
    step 390 (let! v20 := deref v18 in WindGroup_append v20 "19" RP_METAR md_default) (fun p => let v21 := Some (fst p) in let v22 := snd p in 
    chk 390 (Ok (AppendResult_beq v22 NOT_APPENDED)) (
    step 392 (let! v23 := deref v21 in WindGroup_append v23 "FROPA" RP_METAR md_default) (fun p => let v24 := Some (fst p) in let v25 := snd p in 
    chk 392 (Ok (AppendResult_beq v25 NOT_APPENDED)) (
    step 394 (let! v26 := deref v24 in WindGroup_append v26 "PK" RP_METAR md_default) (fun p => let v27 := Some (fst p) in let v28 := snd p in 
    chk 394 (Ok (AppendResult_beq v28 NOT_APPENDED)) (
    step 396 (let! v29 := deref v27 in WindGroup_append v29 "WND" RP_METAR md_default) (fun p => let v30 := Some (fst p) in let v31 := snd p in 
    chk 396 (Ok (AppendResult_beq v31 NOT_APPENDED)) (
    step 398 (let! v32 := deref v30 in WindGroup_append v32 "31027/2119" RP_METAR md_default) (fun p => let v33 := Some (fst p) in let v34 := snd p in 
    chk 398 (Ok (AppendResult_beq v34 NOT_APPENDED)) (
    step 400 (let! v35 := deref v33 in WindGroup_append v35 "31027/19" RP_METAR md_default) (fun p => let v36 := Some (fst p) in let v37 := snd p in 
    chk 400 (Ok (AppendResult_beq v37 NOT_APPENDED)) (
    step 402 (let! v38 := deref v36 in WindGroup_append v38 "/////KT" RP_METAR md_default) (fun p => let v39 := Some (fst p) in let v40 := snd p in 
    chk 402 (Ok (AppendResult_beq v40 NOT_APPENDED)) (
    step 404 (let! v41 := deref v39 in WindGroup_append v41 "WSCONDS" RP_METAR md_default) (fun p => let v42 := Some (fst p) in let v43 := snd p in 
    chk 404 (Ok (AppendResult_beq v43 NOT_APPENDED)) (
    step 406 (let! v44 := deref v42 in WindGroup_append v44 "WS" RP_METAR md_default) (fun p => let v45 := Some (fst p) in let v46 := snd p in 
    chk 406 (Ok (AppendResult_beq v46 NOT_APPENDED)) (
    step 408 (let! v47 := deref v45 in WindGroup_append v47 "ALL" RP_METAR md_default) (fun p => let v48 := Some (fst p) in let v49 := snd p in 
    chk 408 (Ok (AppendResult_beq v49 NOT_APPENDED)) (
    step 410 (let! v50 := deref v48 in WindGroup_append v50 "RWY" RP_METAR md_default) (fun p => let v51 := Some (fst p) in let v52 := snd p in 
    chk 410 (Ok (AppendResult_beq v52 NOT_APPENDED)) (
    step 412 (let! v53 := deref v51 in WindGroup_append v53 "R32" RP_METAR md_default) (fun p => let v54 := Some (fst p) in let v55 := snd p in 
    chk 412 (Ok (AppendResult_beq v55 NOT_APPENDED)) (
    chk 415 (let! v56 := deref v54 in Ok (WiType_beq (wi_type v56) Wi_VARIABLE_WIND_SECTOR)) (
    chk 416 (let! v57 := deref v54 in Ok (DirType_beq (dirType (wi_dir v57)) DT_NOT_REPORTED)) (
    chk 417 (let! v58 := deref v54 in Ok (negb (has_value (speedValue (wi_speed v58))))) (
    chk 418 (let! v59 := deref v54 in Ok (negb (has_value (speedValue (wi_gust v59))))) (
    chk 419 (let! v60 := deref v54 in Ok (negb (Distance_isReported (wi_height v60)))) (
    chk 420 (let! v61 := deref v54 in Ok (DirType_beq (dirType (wi_vsecBegin v61)) DT_VALUE_DEGREES)) (
    chk 421 (let! v62 := deref v54 in Ok (has_value (Direction_degrees (wi_vsecBegin v62)))) (
    chk 422 (let! v63 := deref v54 in let! v64 := deref (Direction_degrees (wi_vsecBegin v63)) in Ok (N.eqb v64 170%N)) (
    chk 423 (let! v65 := deref v54 in Ok (DirType_beq (dirType (wi_vsecEnd v65)) DT_VALUE_DEGREES)) (
    chk 424 (let! v66 := deref v54 in Ok (has_value (Direction_degrees (wi_vsecEnd v66)))) (
    chk 425 (let! v67 := deref v54 in let! v68 := deref (Direction_degrees (wi_vsecEnd v67)) in Ok (N.eqb v68 190%N)) (
    chk 426 (let! v69 := deref v54 in Ok (negb (has_value (wi_evTime v69)))) (
    chk 427 (let! v70 := deref v54 in Ok (negb (has_value (wi_rw v70)))) (
    None))))))))))))))))))))))))))))))))))))))))))))))))))).

Definition t_WindGroup_parseWindShear : option N :=
    step 437 ((WindGroup_parse "WS020/05035KT" RP_METAR md_default)) (fun v1 => 
    chk 438 (Ok (has_value v1)) (
    chk 439 (let! v2 := deref v1 in Ok (WiType_beq (wi_type v2) Wi_WIND_SHEAR)) (
    chk 440 (let! v3 := deref v1 in Ok (DirType_beq (dirType (wi_dir v3)) DT_VALUE_DEGREES)) (
    chk 441 (let! v4 := deref v1 in Ok (has_value (Direction_degrees (wi_dir v4)))) (
    chk 442 (let! v5 := deref v1 in let! v6 := deref (Direction_degrees (wi_dir v5)) in Ok (N.eqb v6 50%N)) (
    chk 443 (let! v7 := deref v1 in Ok (has_value (speedValue (wi_speed v7)))) (
    chk 444 (let! v8 := deref v1 in Ok (SpeedUnit_beq (speedUnit (wi_speed v8)) KNOTS)) (
    chk 445 (let! v9 := deref v1 in let! v10 := deref (speedValue (wi_speed v9)) in Ok (N.eqb v10 35%N)) (
    chk 446 (let! v11 := deref v1 in Ok (negb (has_value (speedValue (wi_gust v11))))) (
    chk 447 (let! v12 := deref v1 in Ok (Distance_isReported (wi_height v12))) (
    chk 448 (let! v13 := deref v1 in Ok (has_value (Distance_distance (wi_height v13)))) (
    chk 449 (let! v14 := deref v1 in let! v15 := deref (Distance_distance (wi_height v14)) in Ok (near v15 (dlit (2000) 1) (dlit (1) 2))) (
    chk 450 (let! v16 := deref v1 in Ok (DistUnit_beq (distUnit (wi_height v16)) FEET)) (
    chk 451 (let! v17 := deref v1 in Ok (DirType_beq (dirType (wi_vsecBegin v17)) DT_NOT_REPORTED)) (
    chk 452 (let! v18 := deref v1 in Ok (DirType_beq (dirType (wi_vsecEnd v18)) DT_NOT_REPORTED)) (
    chk 453 (let! v19 := deref v1 in Ok (negb (has_value (wi_evTime v19)))) (
    chk 454 (let! v20 := deref v1 in Ok (negb (has_value (wi_rw v20)))) (
    None)))))))))))))))))).

Definition t_WindGroup_parseWindShearWrongReportPart : option N :=
    chk 458 (let! v1 := (WindGroup_parse "WS020/05035KT" RP_UNKNOWN md_default) in Ok (negb (has_value v1))) (
    chk 459 (let! v2 := (WindGroup_parse "WS020/05035KT" RP_HEADER md_default) in Ok (negb (has_value v2))) (
    chk 460 (let! v3 := (WindGroup_parse "WS020/05035KT" RP_RMK md_default) in Ok (negb (has_value v3))) (
    None))).

Definition t_WindGroup_parseWindShearWrongFormat : option N :=
    chk 464 (let! v1 := (WindGroup_parse "WS0020/05035KT" RP_METAR md_default) in Ok (negb (has_value v1))) (
    chk 465 (let! v2 := (WindGroup_parse "WS20/05035KT" RP_METAR md_default) in Ok (negb (has_value v2))) (
    chk 466 (let! v3 := (WindGroup_parse "WS020/5035KT" RP_METAR md_default) in Ok (negb (has_value v3))) (
    chk 467 (let! v4 := (WindGroup_parse "WS020/050035KT" RP_METAR md_default) in Ok (negb (has_value v4))) (
    chk 468 (let! v5 := (WindGroup_parse "WS020/05135KT" RP_METAR md_default) in Ok (negb (has_value v5))) (
    chk 469 (let! v6 := (WindGroup_parse "WS020/05135KTS" RP_METAR md_default) in Ok (negb (has_value v6))) (
    chk 470 (let! v7 := (WindGroup_parse "WS020/05A35KT" RP_METAR md_default) in Ok (negb (has_value v7))) (
    chk 471 (let! v8 := (WindGroup_parse "WS020/0500AKT" RP_METAR md_default) in Ok (negb (has_value v8))) (
    None)))))))).

Definition t_WindGroup_appendWindShearGroupAndOther : option N :=
    step 475 ((WindGroup_parse "WS020/18025KT" RP_METAR md_default)) (fun v1 => 
    chk 476 (Ok (has_value v1)) (
    step 478 (let! v2 := deref v1 in WindGroup_append v2 "18005G10KT" RP_METAR md_default) (fun p => let v3 := Some (fst p) in let v4 := snd p in 
    chk 478 (Ok (AppendResult_beq v4 NOT_APPENDED)) (
    step 480 (let! v5 := deref v3 in WindGroup_append v5 "170V190" RP_METAR md_default) (fun p => let v6 := Some (fst p) in let v7 := snd p in 
    chk 480 (Ok (AppendResult_beq v7 NOT_APPENDED)) (
    step 482 (let! v8 := deref v6 in WindGroup_append v8 "WSHIFT" RP_METAR md_default) (fun p => let v9 := Some (fst p) in let v10 := snd p in 
    chk 482 (Ok (AppendResult_beq v10 NOT_APPENDED)) (
    step 484 (let! v11 := deref v9 in WindGroup_append v11 "FROPA" RP_METAR md_default) (fun p => let v12 := Some (fst p) in let v13 := snd p in 
    chk 484 (Ok (AppendResult_beq v13 NOT_APPENDED)) (
    step 486 (let! v14 := deref v12 in WindGroup_append v14 "2119" RP_METAR md_default) (fun p => let v15 := Some (fst p) in let v16 := snd p in 
    chk 486 (Ok (AppendResult_beq v16 NOT_APPENDED)) (
    step 488 (let! v17 := deref v15 in WindGroup_append v17 "19" RP_METAR md_default) (fun p => let v18 := Some (fst p) in let v19 := snd p in 
    chk 488 (Ok (AppendResult_beq v19 NOT_APPENDED)) (
    step 490 (let! v20 := deref v18 in WindGroup_append v20 "FROPA" RP_METAR md_default) (fun p => let v21 := Some (fst p) in let v22 := snd p in 
    chk 490 (Ok (AppendResult_beq v22 NOT_APPENDED)) (
    step 492 (let! v23 := deref v21 in WindGroup_append v23 "PK" RP_METAR md_default) (fun p => let v24 := Some (fst p) in let v25 := snd p in 
    chk 492 (Ok (AppendResult_beq v25 NOT_APPENDED)) (
    step 494 (let! v26 := deref v24 in WindGroup_append v26 "WND" RP_METAR md_default) (fun p => let v27 := Some (fst p) in let v28 := snd p in 
    chk 494 (Ok (AppendResult_beq v28 NOT_APPENDED)) (
    step 496 (let! v29 := deref v27 in WindGroup_append v29 "31027/2119" RP_METAR md_default) (fun p => let v30 := Some (fst p) in let v31 := snd p in 
    chk 496 (Ok (AppendResult_beq v31 NOT_APPENDED)) (
    step 498 (let! v32 := deref v30 in WindGroup_append v32 "31027/19" RP_METAR md_default) (fun p => let v33 := Some (fst p) in let v34 := snd p in 
    chk 498 (Ok (AppendResult_beq v34 NOT_APPENDED)) (
    step 500 (let! v35 := deref v33 in WindGroup_append v35 "/////KT" RP_METAR md_default) (fun p => let v36 := Some (fst p) in let v37 := snd p in 
    chk 500 (Ok (AppendResult_beq v37 NOT_APPENDED)) (
    step 502 (let! v38 := deref v36 in WindGroup_append v38 "WSCONDS" RP_METAR md_default) (fun p => let v39 := Some (fst p) in let v40 := snd p in 
    chk 502 (Ok (AppendResult_beq v40 NOT_APPENDED)) (
    step 504 (let! v41 := deref v39 in WindGroup_append v41 "WS" RP_METAR md_default) (fun p => let v42 := Some (fst p) in let v43 := snd p in 
    chk 504 (Ok (AppendResult_beq v43 NOT_APPENDED)) (
    step 506 (let! v44 := deref v42 in WindGroup_append v44 "ALL" RP_METAR md_default) (fun p => let v45 := Some (fst p) in let v46 := snd p in 
    chk 506 (Ok (AppendResult_beq v46 NOT_APPENDED)) (
    step 508 (let! v47 := deref v45 in WindGroup_append v47 "RWY" RP_METAR md_default) (fun p => let v48 := Some (fst p) in let v49 := snd p in 
    chk 508 (Ok (AppendResult_beq v49 NOT_APPENDED)) (
    step 510 (let! v50 := deref v48 in WindGroup_append v50 "R32" RP_METAR md_default) (fun p => let v51 := Some (fst p) in let v52 := snd p in 
    chk 510 (Ok (AppendResult_beq v52 NOT_APPENDED)) (
    chk 513 (let! v53 := deref v51 in Ok (WiType_beq (wi_type v53) Wi_WIND_SHEAR)) (
    chk 514 (let! v54 := deref v51 in Ok (DirType_beq (dirType (wi_dir v54)) DT_VALUE_DEGREES)) (
    chk 515 (let! v55 := deref v51 in Ok (has_value (Direction_degrees (wi_dir v55)))) (
    chk 516 (let! v56 := deref v51 in let! v57 := deref (Direction_degrees (wi_dir v56)) in Ok (N.eqb v57 180%N)) (
    chk 517 (let! v58 := deref v51 in Ok (has_value (speedValue (wi_speed v58)))) (
    chk 518 (let! v59 := deref v51 in Ok (SpeedUnit_beq (speedUnit (wi_speed v59)) KNOTS)) (
    chk 519 (let! v60 := deref v51 in let! v61 := deref (speedValue (wi_speed v60)) in Ok (N.eqb v61 25%N)) (
    chk 520 (let! v62 := deref v51 in Ok (negb (has_value (speedValue (wi_gust v62))))) (
    chk 521 (let! v63 := deref v51 in Ok (Distance_isReported (wi_height v63))) (
    chk 522 (let! v64 := deref v51 in Ok (has_value (Distance_distance (wi_height v64)))) (
    chk 523 (let! v65 := deref v51 in let! v66 := deref (Distance_distance (wi_height v65)) in Ok (near v66 (dlit (2000) 1) (dlit (1) 2))) (
    chk 524 (let! v67 := deref v51 in Ok (DistUnit_beq (distUnit (wi_height v67)) FEET)) (
    chk 525 (let! v68 := deref v51 in Ok (DirType_beq (dirType (wi_vsecBegin v68)) DT_NOT_REPORTED)) (
    chk 526 (let! v69 := deref v51 in Ok (DirType_beq (dirType (wi_vsecEnd v69)) DT_NOT_REPORTED)) (
    chk 527 (let! v70 := deref v51 in Ok (negb (has_value (wi_evTime v70)))) (
    chk 528 (let! v71 := deref v51 in Ok (negb (has_value (wi_rw v71)))) (
    None)))))))))))))))))))))))))))))))))))))))))))))))))))).

Definition t_WindGroup_calmWindKnots : option N :=
    step 538 ((WindGroup_parse "00000KT" RP_METAR md_default)) (fun v1 => 
    chk 539 (Ok (has_value v1)) (
    chk 540 (let! v2 := deref v1 in Ok (WiType_beq (wi_type v2) Wi_SURFACE_WIND_CALM)) (
    chk 541 (let! v3 := deref v1 in Ok (DirType_beq (dirType (wi_dir v3)) DT_NOT_REPORTED)) (
    chk 542 (let! v4 := deref v1 in Ok (has_value (speedValue (wi_speed v4)))) (
    chk 543 (let! v5 := deref v1 in Ok (SpeedUnit_beq (speedUnit (wi_speed v5)) KNOTS)) (
    chk 544 (let! v6 := deref v1 in let! v7 := deref (speedValue (wi_speed v6)) in Ok (N.eqb v7 0%N)) (
    chk 545 (let! v8 := deref v1 in Ok (negb (has_value (speedValue (wi_gust v8))))) (
    chk 546 (let! v9 := deref v1 in Ok (negb (Distance_isReported (wi_height v9)))) (
    chk 547 (let! v10 := deref v1 in Ok (DirType_beq (dirType (wi_vsecBegin v10)) DT_NOT_REPORTED)) (
    chk 548 (let! v11 := deref v1 in Ok (DirType_beq (dirType (wi_vsecEnd v11)) DT_NOT_REPORTED)) (
    chk 549 (let! v12 := deref v1 in Ok (negb (has_value (wi_evTime v12)))) (
    chk 550 (let! v13 := deref v1 in Ok (negb (has_value (wi_rw v13)))) (
    None))))))))))))).

Definition t_WindGroup_calmWindMps : option N :=
    step 554 ((WindGroup_parse "00000MPS" RP_METAR md_default)) (fun v1 => 
    chk 555 (Ok (has_value v1)) (
    chk 556 (let! v2 := deref v1 in Ok (WiType_beq (wi_type v2) Wi_SURFACE_WIND_CALM)) (
    chk 557 (let! v3 := deref v1 in Ok (DirType_beq (dirType (wi_dir v3)) DT_NOT_REPORTED)) (
    chk 558 (let! v4 := deref v1 in Ok (has_value (speedValue (wi_speed v4)))) (
    chk 559 (let! v5 := deref v1 in Ok (SpeedUnit_beq (speedUnit (wi_speed v5)) METERS_PER_SECOND)) (
    chk 560 (let! v6 := deref v1 in let! v7 := deref (speedValue (wi_speed v6)) in Ok (N.eqb v7 0%N)) (
    chk 561 (let! v8 := deref v1 in Ok (negb (has_value (speedValue (wi_gust v8))))) (
    chk 562 (let! v9 := deref v1 in Ok (negb (Distance_isReported (wi_height v9)))) (
    chk 563 (let! v10 := deref v1 in Ok (DirType_beq (dirType (wi_vsecBegin v10)) DT_NOT_REPORTED)) (
    chk 564 (let! v11 := deref v1 in Ok (DirType_beq (dirType (wi_vsecEnd v11)) DT_NOT_REPORTED)) (
    chk 565 (let! v12 := deref v1 in Ok (negb (has_value (wi_evTime v12)))) (
    chk 566 (let! v13 := deref v1 in Ok (negb (has_value (wi_rw v13)))) (
    None))))))))))))).

Definition t_WindGroup_calmWindKmh : option N :=
    step 570 ((WindGroup_parse "00000KMH" RP_METAR md_default)) (fun v1 => 
    chk 571 (Ok (has_value v1)) (
    chk 572 (let! v2 := deref v1 in Ok (WiType_beq (wi_type v2) Wi_SURFACE_WIND_CALM)) (
    chk 573 (let! v3 := deref v1 in Ok (DirType_beq (dirType (wi_dir v3)) DT_NOT_REPORTED)) (
    chk 574 (let! v4 := deref v1 in Ok (has_value (speedValue (wi_speed v4)))) (
    chk 575 (let! v5 := deref v1 in Ok (SpeedUnit_beq (speedUnit (wi_speed v5)) KILOMETERS_PER_HOUR)) (
    chk 576 (let! v6 := deref v1 in let! v7 := deref (speedValue (wi_speed v6)) in Ok (N.eqb v7 0%N)) (
    chk 577 (let! v8 := deref v1 in Ok (negb (has_value (speedValue (wi_gust v8))))) (
    chk 578 (let! v9 := deref v1 in Ok (negb (Distance_isReported (wi_height v9)))) (
    chk 579 (let! v10 := deref v1 in Ok (DirType_beq (dirType (wi_vsecBegin v10)) DT_NOT_REPORTED)) (
    chk 580 (let! v11 := deref v1 in Ok (DirType_beq (dirType (wi_vsecEnd v11)) DT_NOT_REPORTED)) (
    chk 581 (let! v12 := deref v1 in Ok (negb (has_value (wi_evTime v12)))) (
    chk 582 (let! v13 := deref v1 in Ok (negb (has_value (wi_rw v13)))) (
    None))))))))))))).

Definition t_WindGroup_parseWsconds : option N :=
    step 592 ((WindGroup_parse "WSCONDS" RP_TAF md_default)) (fun v1 => 
    chk 593 (Ok (has_value v1)) (
    chk 594 (let! v2 := deref v1 in Ok (WiType_beq (wi_type v2) Wi_WSCONDS)) (
    chk 595 (let! v3 := deref v1 in Ok (DirType_beq (dirType (wi_dir v3)) DT_NOT_REPORTED)) (
    chk 596 (let! v4 := deref v1 in Ok (negb (Speed_isReported (wi_gust v4)))) (
    chk 597 (let! v5 := deref v1 in Ok (negb (Speed_isReported (wi_gust v5)))) (
    chk 598 (let! v6 := deref v1 in Ok (negb (Distance_isReported (wi_height v6)))) (
    chk 599 (let! v7 := deref v1 in Ok (DirType_beq (dirType (wi_vsecBegin v7)) DT_NOT_REPORTED)) (
    chk 600 (let! v8 := deref v1 in Ok (DirType_beq (dirType (wi_vsecEnd v8)) DT_NOT_REPORTED)) (
    chk 601 (let! v9 := deref v1 in Ok (negb (has_value (wi_evTime v9)))) (
    chk 602 (let! v10 := deref v1 in Ok (negb (has_value (wi_rw v10)))) (
    None))))))))))).

Definition t_WindGroup_parseWscondsWrongReportPart : option N :=
    chk 606 (let! v1 := (WindGroup_parse "WSCONDS" RP_UNKNOWN md_default) in Ok (negb (has_value v1))) (
    chk 607 (let! v2 := (WindGroup_parse "WSCONDS" RP_HEADER md_default) in Ok (negb (has_value v2))) (
    chk 608 (let! v3 := (WindGroup_parse "WSCONDS" RP_METAR md_default) in Ok (negb (has_value v3))) (
    chk 609 (let! v4 := (WindGroup_parse "WSCONDS" RP_RMK md_default) in Ok (negb (has_value v4))) (
    None)))).

Definition t_WindGroup_appendWscondsAndOther : option N :=
    step 613 ((WindGroup_parse "WSCONDS" RP_TAF md_default)) (fun v1 => 
    chk 614 (Ok (has_value v1)) (
    step 616 (let! v2 := deref v1 in WindGroup_append v2 "18005G10KT" RP_METAR md_default) (fun p => let v3 := Some (fst p) in let v4 := snd p in 
    chk 616 (Ok (AppendResult_beq v4 NOT_APPENDED)) (
    step 618 (let! v5 := deref v3 in WindGroup_append v5 "WS020/18025KT" RP_METAR md_default) (fun p => let v6 := Some (fst p) in let v7 := snd p in 
    chk 618 (Ok (AppendResult_beq v7 NOT_APPENDED)) (
    step 620 (let! v8 := deref v6 in WindGroup_append v8 "170V190" RP_METAR md_default) (fun p => let v9 := Some (fst p) in let v10 := snd p in 
    chk 620 (Ok (AppendResult_beq v10 NOT_APPENDED)) (
    step 622 (let! v11 := deref v9 in WindGroup_append v11 "WSHIFT" RP_METAR md_default) (fun p => let v12 := Some (fst p) in let v13 := snd p in 
    chk 622 (Ok (AppendResult_beq v13 NOT_APPENDED)) (
    step 624 (let! v14 := deref v12 in WindGroup_append v14 "FROPA" RP_METAR md_default) (fun p => let v15 := Some (fst p) in let v16 := snd p in 
    chk 624 (Ok (AppendResult_beq v16 NOT_APPENDED)) (
    step 626 (let! v17 := deref v15 in WindGroup_append v17 "2119" RP_METAR md_default) (fun p => let v18 := Some (fst p) in let v19 := snd p in 
    chk 626 (Ok (AppendResult_beq v19 NOT_APPENDED)) (
    step 628 (let! v20 := deref v18 in WindGroup_append v20 "19" RP_METAR md_default) (fun p => let v21 := Some (fst p) in let v22 := snd p in 
    chk 628 (Ok (AppendResult_beq v22 NOT_APPENDED)) (
    step 630 (let! v23 := deref v21 in WindGroup_append v23 "FROPA" RP_METAR md_default) (fun p => let v24 := Some (fst p) in let v25 := snd p in 
    chk 630 (Ok (AppendResult_beq v25 NOT_APPENDED)) (
    step 632 (let! v26 := deref v24 in WindGroup_append v26 "PK" RP_METAR md_default) (fun p => let v27 := Some (fst p) in let v28 := snd p in 
    chk 632 (Ok (AppendResult_beq v28 NOT_APPENDED)) (
    step 634 (let! v29 := deref v27 in WindGroup_append v29 "WND" RP_METAR md_default) (fun p => let v30 := Some (fst p) in let v31 := snd p in 
    chk 634 (Ok (AppendResult_beq v31 NOT_APPENDED)) (
    step 636 (let! v32 := deref v30 in WindGroup_append v32 "31027/2119" RP_METAR md_default) (fun p => let v33 := Some (fst p) in let v34 := snd p in 
    chk 636 (Ok (AppendResult_beq v34 NOT_APPENDED)) (
    step 638 (let! v35 := deref v33 in WindGroup_append v35 "31027/19" RP_METAR md_default) (fun p => let v36 := Some (fst p) in let v37 := snd p in 
    chk 638 (Ok (AppendResult_beq v37 NOT_APPENDED)) (
    step 640 (let! v38 := deref v36 in WindGroup_append v38 "/////KT" RP_METAR md_default) (fun p => let v39 := Some (fst p) in let v40 := snd p in 
    chk 640 (Ok (AppendResult_beq v40 NOT_APPENDED)) (
    step 642 (let! v41 := deref v39 in WindGroup_append v41 "WSCONDS" RP_METAR md_default) (fun p => let v42 := Some (fst p) in let v43 := snd p in 
    chk 642 (Ok (AppendResult_beq v43 NOT_APPENDED)) (
    step 644 (let! v44 := deref v42 in WindGroup_append v44 "WS" RP_METAR md_default) (fun p => let v45 := Some (fst p) in let v46 := snd p in 
    chk 644 (Ok (AppendResult_beq v46 NOT_APPENDED)) (
    step 646 (let! v47 := deref v45 in WindGroup_append v47 "ALL" RP_METAR md_default) (fun p => let v48 := Some (fst p) in let v49 := snd p in 
    chk 646 (Ok (AppendResult_beq v49 NOT_APPENDED)) (
    step 648 (let! v50 := deref v48 in WindGroup_append v50 "RWY" RP_METAR md_default) (fun p => let v51 := Some (fst p) in let v52 := snd p in 
    chk 648 (Ok (AppendResult_beq v52 NOT_APPENDED)) (
    step 650 (let! v53 := deref v51 in WindGroup_append v53 "R32" RP_METAR md_default) (fun p => let v54 := Some (fst p) in let v55 := snd p in 
    chk 650 (Ok (AppendResult_beq v55 NOT_APPENDED)) (
    chk 653 (let! v56 := deref v54 in Ok (WiType_beq (wi_type v56) Wi_WSCONDS)) (
    chk 654 (let! v57 := deref v54 in Ok (DirType_beq (dirType (wi_dir v57)) DT_NOT_REPORTED)) (
    chk 655 (let! v58 := deref v54 in Ok (negb (Speed_isReported (wi_gust v58)))) (
    chk 656 (let! v59 := deref v54 in Ok (negb (Speed_isReported (wi_gust v59)))) (
    chk 657 (let! v60 := deref v54 in Ok (negb (Distance_isReported (wi_height v60)))) (
    chk 658 (let! v61 := deref v54 in Ok (DirType_beq (dirType (wi_vsecBegin v61)) DT_NOT_REPORTED)) (
    chk 659 (let! v62 := deref v54 in Ok (DirType_beq (dirType (wi_vsecEnd v62)) DT_NOT_REPORTED)) (
    chk 660 (let! v63 := deref v54 in Ok (negb (has_value (wi_evTime v63)))) (
    chk 661 (let! v64 := deref v54 in Ok (negb (has_value (wi_rw v64)))) (
    None))))))))))))))))))))))))))))))))))))))))))))))).

Definition t_WindGroup_parseWndMisg : option N :=
    step 670 ((WindGroup_parse "WND" RP_RMK md_default)) (fun v1 => 
    chk 671 (Ok (has_value v1)) (
    step 672 (let! v2 := deref v1 in WindGroup_append v2 "MISG" RP_RMK md_default) (fun p => let v3 := Some (fst p) in let v4 := snd p in 
    chk 672 (Ok (AppendResult_beq v4 APPENDED)) (
    chk 674 (let! v5 := deref v3 in Ok (WiType_beq (wi_type v5) Wi_WND_MISG)) (
    None))))).

Definition t_WindGroup_appendOtherToWnd : option N :=
    step 680 ((WindGroup_parse "WND" RP_RMK md_default)) (fun v1 => 
    chk 681 (Ok (has_value v1)) (
    step 682 (let! v2 := deref v1 in WindGroup_append v2 "MSSG" RP_RMK md_default) (fun p => let v3 := Some (fst p) in let v4 := snd p in 
    chk 682 (Ok (AppendResult_beq v4 GROUP_INVALIDATED)) (
    step 685 ((WindGroup_parse "WND" RP_RMK md_default)) (fun v5 => 
    chk 686 (Ok (has_value v5)) (
    step 687 (let! v6 := deref v5 in WindGroup_append v6 "4000" RP_RMK md_default) (fun p => let v7 := Some (fst p) in let v8 := snd p in 
    chk 687 (Ok (AppendResult_beq v8 GROUP_INVALIDATED)) (
    step 690 ((WindGroup_parse "WND" RP_RMK md_default)) (fun v9 => 
    chk 691 (Ok (has_value v9)) (
    step 692 (let! v10 := deref v9 in WindGroup_append v10 "////" RP_RMK md_default) (fun p => let v11 := Some (fst p) in let v12 := snd p in 
    chk 692 (Ok (AppendResult_beq v12 GROUP_INVALIDATED)) (
    step 695 ((WindGroup_parse "WND" RP_RMK md_default)) (fun v13 => 
    chk 696 (Ok (has_value v13)) (
    step 697 (let! v14 := deref v13 in WindGroup_append v14 "WND" RP_RMK md_default) (fun p => let v15 := Some (fst p) in let v16 := snd p in 
    chk 697 (Ok (AppendResult_beq v16 GROUP_INVALIDATED)) (
    None)))))))))))))))).

Definition t_WindGroup_parseWshft : option N :=
    step 708 ((WindGroup_parse "WSHFT" RP_RMK md_default)) (fun v1 => 
    chk 709 (Ok (has_value v1)) (
    chk 710 (let! v2 := deref v1 in Ok (WiType_beq (wi_type v2) Wi_WIND_SHIFT)) (
    chk 711 (let! v3 := deref v1 in Ok (DirType_beq (dirType (wi_dir v3)) DT_NOT_REPORTED)) (
    chk 712 (let! v4 := deref v1 in Ok (negb (Speed_isReported (wi_speed v4)))) (
    chk 713 (let! v5 := deref v1 in Ok (negb (Speed_isReported (wi_gust v5)))) (
    chk 714 (let! v6 := deref v1 in Ok (negb (Distance_isReported (wi_height v6)))) (
    chk 715 (let! v7 := deref v1 in Ok (DirType_beq (dirType (wi_vsecBegin v7)) DT_NOT_REPORTED)) (
    chk 716 (let! v8 := deref v1 in Ok (DirType_beq (dirType (wi_vsecEnd v8)) DT_NOT_REPORTED)) (
    chk 717 (let! v9 := deref v1 in Ok (negb (has_value (wi_evTime v9)))) (
    chk 718 (let! v10 := deref v1 in Ok (negb (has_value (wi_rw v10)))) (
    None))))))))))).

Definition t_WindGroup_parseWshftWrongReportPart : option N :=
    chk 722 (let! v1 := (WindGroup_parse "WSHFT" RP_UNKNOWN md_default) in Ok (negb (has_value v1))) (
    chk 723 (let! v2 := (WindGroup_parse "WSHFT" RP_HEADER md_default) in Ok (negb (has_value v2))) (
    chk 724 (let! v3 := (WindGroup_parse "WSHFT" RP_METAR md_default) in Ok (negb (has_value v3))) (
    chk 725 (let! v4 := (WindGroup_parse "WSHFT" RP_TAF md_default) in Ok (negb (has_value v4))) (
    None)))).

Definition t_WindGroup_parseWshftWrongFormat : option N :=
    chk 729 (let! v1 := (WindGroup_parse "WSHIFT" RP_RMK md_default) in Ok (negb (has_value v1))) (
    chk 730 (let! v2 := (WindGroup_parse "SHFT" RP_RMK md_default) in Ok (negb (has_value v2))) (
    chk 731 (let! v3 := (WindGroup_parse "WSH" RP_RMK md_default) in Ok (negb (has_value v3))) (
    None))).

Definition t_WindGroup_appendWshftAndTimeMin : option N :=
    step 735 ((MetafTime_fromStringDDHHMM "210530")) (fun v1 => 
    chk 736 (Ok (has_value v1)) (
    step 739 (deref v1) (fun v2 => 
    step 741 ((WindGroup_parse "WSHFT" RP_RMK (md_set_reportTime md_default v2))) (fun v3 => 
    chk 742 (Ok (has_value v3)) (
    step 744 (let! v4 := deref v3 in WindGroup_append v4 "18" RP_RMK (md_set_reportTime md_default v2)) (fun p => let v5 := Some (fst p) in let v6 := snd p in 
    chk 744 (Ok (AppendResult_beq v6 APPENDED)) (
    chk 747 (let! v7 := deref v5 in Ok (WiType_beq (wi_type v7) Wi_WIND_SHIFT)) (
    chk 748 (let! v8 := deref v5 in Ok (DirType_beq (dirType (wi_dir v8)) DT_NOT_REPORTED)) (
    chk 749 (let! v9 := deref v5 in Ok (negb (Speed_isReported (wi_speed v9)))) (
    chk 750 (let! v10 := deref v5 in Ok (negb (Speed_isReported (wi_gust v10)))) (
    chk 751 (let! v11 := deref v5 in Ok (negb (Distance_isReported (wi_height v11)))) (
    chk 752 (let! v12 := deref v5 in Ok (DirType_beq (dirType (wi_vsecBegin v12)) DT_NOT_REPORTED)) (
    chk 753 (let! v13 := deref v5 in Ok (DirType_beq (dirType (wi_vsecEnd v13)) DT_NOT_REPORTED)) (
    chk 755 (let! v14 := deref v5 in Ok (has_value (wi_evTime v14))) (
    chk 756 (let! v15 := deref v5 in let! v16 := deref (wi_evTime v15) in Ok (negb (has_value (dayValue v16)))) (
    chk 757 (let! v17 := deref v5 in let! v18 := deref (wi_evTime v17) in let! v19 := deref v1 in Ok (N.eqb (hourValue v18) (hourValue v19))) (
    chk 758 (let! v20 := deref v5 in let! v21 := deref (wi_evTime v20) in Ok (N.eqb (minuteValue v21) 18%N)) (
    chk 760 (let! v22 := deref v5 in Ok (negb (has_value (wi_rw v22)))) (
    None))))))))))))))))))).

Definition t_WindGroup_appendWshftAndTimeMinNoReportTime : option N :=
    step 766 ((WindGroup_parse "WSHFT" RP_RMK md_default)) (fun v1 => 
    chk 767 (Ok (has_value v1)) (
    step 769 (let! v2 := deref v1 in WindGroup_append v2 "18" RP_RMK md_default) (fun p => let v3 := Some (fst p) in let v4 := snd p in 
    chk 769 (Ok (AppendResult_beq v4 NOT_APPENDED)) (
    None)))).

Definition t_WindGroup_appendWshftAndTimeHourMin : option N :=
    step 774 ((WindGroup_parse "WSHFT" RP_RMK md_default)) (fun v1 => 
    chk 775 (Ok (has_value v1)) (
    step 777 (let! v2 := deref v1 in WindGroup_append v2 "0415" RP_RMK md_default) (fun p => let v3 := Some (fst p) in let v4 := snd p in 
    chk 777 (Ok (AppendResult_beq v4 APPENDED)) (
    chk 779 (let! v5 := deref v3 in Ok (WiType_beq (wi_type v5) Wi_WIND_SHIFT)) (
    chk 780 (let! v6 := deref v3 in Ok (DirType_beq (dirType (wi_dir v6)) DT_NOT_REPORTED)) (
    chk 781 (let! v7 := deref v3 in Ok (negb (Speed_isReported (wi_speed v7)))) (
    chk 782 (let! v8 := deref v3 in Ok (negb (Speed_isReported (wi_gust v8)))) (
    chk 783 (let! v9 := deref v3 in Ok (negb (Distance_isReported (wi_height v9)))) (
    chk 784 (let! v10 := deref v3 in Ok (DirType_beq (dirType (wi_vsecBegin v10)) DT_NOT_REPORTED)) (
    chk 785 (let! v11 := deref v3 in Ok (DirType_beq (dirType (wi_vsecEnd v11)) DT_NOT_REPORTED)) (
    chk 787 (let! v12 := deref v3 in Ok (has_value (wi_evTime v12))) (
    chk 788 (let! v13 := deref v3 in let! v14 := deref (wi_evTime v13) in Ok (negb (has_value (dayValue v14)))) (
    chk 789 (let! v15 := deref v3 in let! v16 := deref (wi_evTime v15) in Ok (N.eqb (hourValue v16) 4%N)) (
    chk 790 (let! v17 := deref v3 in let! v18 := deref (wi_evTime v17) in Ok (N.eqb (minuteValue v18) 15%N)) (
    chk 792 (let! v19 := deref v3 in Ok (negb (has_value (wi_rw v19)))) (
    None)))))))))))))))).

Definition t_WindGroup_appendWshftAndTimeAndFropa : option N :=
    step 796 ((WindGroup_parse "WSHFT" RP_RMK md_default)) (fun v1 => 
    chk 797 (Ok (has_value v1)) (
    step 799 (let! v2 := deref v1 in WindGroup_append v2 "2330" RP_RMK md_default) (fun p => let v3 := Some (fst p) in let v4 := snd p in 
    chk 799 (Ok (AppendResult_beq v4 APPENDED)) (
    step 801 (let! v5 := deref v3 in WindGroup_append v5 "FROPA" RP_RMK md_default) (fun p => let v6 := Some (fst p) in let v7 := snd p in 
    chk 801 (Ok (AppendResult_beq v7 APPENDED)) (
    chk 804 (let! v8 := deref v6 in Ok (WiType_beq (wi_type v8) Wi_WIND_SHIFT_FROPA)) (
    chk 805 (let! v9 := deref v6 in Ok (DirType_beq (dirType (wi_dir v9)) DT_NOT_REPORTED)) (
    chk 806 (let! v10 := deref v6 in Ok (negb (Speed_isReported (wi_speed v10)))) (
    chk 807 (let! v11 := deref v6 in Ok (negb (Speed_isReported (wi_gust v11)))) (
    chk 808 (let! v12 := deref v6 in Ok (negb (Distance_isReported (wi_height v12)))) (
    chk 809 (let! v13 := deref v6 in Ok (DirType_beq (dirType (wi_vsecBegin v13)) DT_NOT_REPORTED)) (
    chk 810 (let! v14 := deref v6 in Ok (DirType_beq (dirType (wi_vsecEnd v14)) DT_NOT_REPORTED)) (
    chk 812 (let! v15 := deref v6 in Ok (has_value (wi_evTime v15))) (
    chk 813 (let! v16 := deref v6 in let! v17 := deref (wi_evTime v16) in Ok (negb (has_value (dayValue v17)))) (
    chk 814 (let! v18 := deref v6 in let! v19 := deref (wi_evTime v18) in Ok (N.eqb (hourValue v19) 23%N)) (
    chk 815 (let! v20 := deref v6 in let! v21 := deref (wi_evTime v20) in Ok (N.eqb (minuteValue v21) 30%N)) (
    chk 817 (let! v22 := deref v6 in Ok (negb (has_value (wi_rw v22)))) (
    None)))))))))))))))))).

Definition t_WindGroup_appendWshftAndFropa : option N :=
    step 821 ((WindGroup_parse "WSHFT" RP_RMK md_default)) (fun v1 => 
    chk 822 (Ok (has_value v1)) (
    step 824 (let! v2 := deref v1 in WindGroup_append v2 "FROPA" RP_RMK md_default) (fun p => let v3 := Some (fst p) in let v4 := snd p in 
    chk 824 (Ok (AppendResult_beq v4 APPENDED)) (
    chk 827 (let! v5 := deref v3 in Ok (WiType_beq (wi_type v5) Wi_WIND_SHIFT_FROPA)) (
    chk 828 (let! v6 := deref v3 in Ok (DirType_beq (dirType (wi_dir v6)) DT_NOT_REPORTED)) (
    chk 829 (let! v7 := deref v3 in Ok (negb (Speed_isReported (wi_speed v7)))) (
    chk 830 (let! v8 := deref v3 in Ok (negb (Speed_isReported (wi_gust v8)))) (
    chk 831 (let! v9 := deref v3 in Ok (negb (Distance_isReported (wi_height v9)))) (
    chk 832 (let! v10 := deref v3 in Ok (DirType_beq (dirType (wi_vsecBegin v10)) DT_NOT_REPORTED)) (
    chk 833 (let! v11 := deref v3 in Ok (DirType_beq (dirType (wi_vsecEnd v11)) DT_NOT_REPORTED)) (
    chk 834 (let! v12 := deref v3 in Ok (negb (has_value (wi_evTime v12)))) (
    chk 836 (let! v13 := deref v3 in Ok (negb (has_value (wi_rw v13)))) (
    None))))))))))))).

Definition t_WindGroup_appendWshftAndOther : option N :=
    step 840 ((MetafTime_fromStringDDHHMM "210530")) (fun v1 => 
    chk 841 (Ok (has_value v1)) (
    step 844 (deref v1) (fun v2 => 
    step 846 ((WindGroup_parse "WSHFT" RP_RMK (md_set_reportTime md_default v2))) (fun v3 => 
    chk 847 (Ok (has_value v3)) (
    step 848 (let! v4 := deref v3 in WindGroup_append v4 "WSHFT" RP_RMK (md_set_reportTime md_default v2)) (fun p => let v5 := Some (fst p) in let v6 := snd p in 
    chk 848 (Ok (AppendResult_beq v6 NOT_APPENDED)) (
    step 850 (let! v7 := deref v5 in WindGroup_append v7 "030" RP_RMK (md_set_reportTime md_default v2)) (fun p => let v8 := Some (fst p) in let v9 := snd p in 
    chk 850 (Ok (AppendResult_beq v9 NOT_APPENDED)) (
    step 852 (let! v10 := deref v8 in WindGroup_append v10 "3" RP_RMK (md_set_reportTime md_default v2)) (fun p => let v11 := Some (fst p) in let v12 := snd p in 
    chk 852 (Ok (AppendResult_beq v12 NOT_APPENDED)) (
    step 854 (let! v13 := deref v11 in WindGroup_append v13 "01035" RP_RMK (md_set_reportTime md_default v2)) (fun p => let v14 := Some (fst p) in let v15 := snd p in 
    chk 854 (Ok (AppendResult_beq v15 NOT_APPENDED)) (
    step 856 (let! v16 := deref v14 in WindGroup_append v16 "135" RP_RMK (md_set_reportTime md_default v2)) (fun p => let v17 := Some (fst p) in let v18 := snd p in 
    chk 856 (Ok (AppendResult_beq v18 NOT_APPENDED)) (
    step 858 (let! v19 := deref v17 in WindGroup_append v19 "18005KT" RP_RMK (md_set_reportTime md_default v2)) (fun p => let v20 := Some (fst p) in let v21 := snd p in 
    chk 858 (Ok (AppendResult_beq v21 NOT_APPENDED)) (
    step 860 (let! v22 := deref v20 in WindGroup_append v22 "18005G10KT" RP_RMK (md_set_reportTime md_default v2)) (fun p => let v23 := Some (fst p) in let v24 := snd p in 
    chk 860 (Ok (AppendResult_beq v24 NOT_APPENDED)) (
    step 862 (let! v25 := deref v23 in WindGroup_append v25 "320V340" RP_RMK (md_set_reportTime md_default v2)) (fun p => let v26 := Some (fst p) in let v27 := snd p in 
    chk 862 (Ok (AppendResult_beq v27 NOT_APPENDED)) (
    step 864 (let! v28 := deref v26 in WindGroup_append v28 "PK" RP_RMK (md_set_reportTime md_default v2)) (fun p => let v29 := Some (fst p) in let v30 := snd p in 
    chk 864 (Ok (AppendResult_beq v30 NOT_APPENDED)) (
    step 866 (let! v31 := deref v29 in WindGroup_append v31 "WND" RP_RMK (md_set_reportTime md_default v2)) (fun p => let v32 := Some (fst p) in let v33 := snd p in 
    chk 866 (Ok (AppendResult_beq v33 NOT_APPENDED)) (
    step 868 (let! v34 := deref v32 in WindGroup_append v34 "31027/2119" RP_RMK (md_set_reportTime md_default v2)) (fun p => let v35 := Some (fst p) in let v36 := snd p in 
    chk 868 (Ok (AppendResult_beq v36 NOT_APPENDED)) (
    step 870 (let! v37 := deref v35 in WindGroup_append v37 "31027/19" RP_RMK (md_set_reportTime md_default v2)) (fun p => let v38 := Some (fst p) in let v39 := snd p in 
    chk 870 (Ok (AppendResult_beq v39 NOT_APPENDED)) (
    step 872 (let! v40 := deref v38 in WindGroup_append v40 "WS020/18025KT" RP_RMK (md_set_reportTime md_default v2)) (fun p => let v41 := Some (fst p) in let v42 := snd p in 
    chk 872 (Ok (AppendResult_beq v42 NOT_APPENDED)) (
    step 874 (let! v43 := deref v41 in WindGroup_append v43 "/////KT" RP_RMK (md_set_reportTime md_default v2)) (fun p => let v44 := Some (fst p) in let v45 := snd p in 
    chk 874 (Ok (AppendResult_beq v45 NOT_APPENDED)) (
    step 876 (let! v46 := deref v44 in WindGroup_append v46 "WSCONDS" RP_METAR md_default) (fun p => let v47 := Some (fst p) in let v48 := snd p in 
    chk 876 (Ok (AppendResult_beq v48 NOT_APPENDED)) (
    step 878 (let! v49 := deref v47 in WindGroup_append v49 "WS" RP_METAR md_default) (fun p => let v50 := Some (fst p) in let v51 := snd p in 
    chk 878 (Ok (AppendResult_beq v51 NOT_APPENDED)) (
    step 880 (let! v52 := deref v50 in WindGroup_append v52 "ALL" RP_METAR md_default) (fun p => let v53 := Some (fst p) in let v54 := snd p in 
    chk 880 (Ok (AppendResult_beq v54 NOT_APPENDED)) (
    step 882 (let! v55 := deref v53 in WindGroup_append v55 "RWY" RP_METAR md_default) (fun p => let v56 := Some (fst p) in let v57 := snd p in 
    chk 882 (Ok (AppendResult_beq v57 NOT_APPENDED)) (
    step 884 (let! v58 := deref v56 in WindGroup_append v58 "R32" RP_METAR md_default) (fun p => let v59 := Some (fst p) in let v60 := snd p in 
    chk 884 (Ok (AppendResult_beq v60 NOT_APPENDED)) (
    None))))))))))))))))))))))))))))))))))))))))))).

Definition t_WindGroup_parsePk : option N :=
    step 895 ((WindGroup_parse "PK" RP_RMK md_default)) (fun v1 => 
    chk 896 (Ok (has_value v1)) (
    chk 897 (let! v2 := deref v1 in Ok (DirType_beq (dirType (wi_dir v2)) DT_NOT_REPORTED)) (
    chk 898 (let! v3 := deref v1 in Ok (negb (Speed_isReported (wi_speed v3)))) (
    chk 899 (let! v4 := deref v1 in Ok (negb (Speed_isReported (wi_gust v4)))) (
    chk 900 (let! v5 := deref v1 in Ok (negb (Distance_isReported (wi_height v5)))) (
    chk 901 (let! v6 := deref v1 in Ok (DirType_beq (dirType (wi_vsecBegin v6)) DT_NOT_REPORTED)) (
    chk 902 (let! v7 := deref v1 in Ok (DirType_beq (dirType (wi_vsecEnd v7)) DT_NOT_REPORTED)) (
    chk 903 (let! v8 := deref v1 in Ok (negb (has_value (wi_evTime v8)))) (
    chk 904 (let! v9 := deref v1 in Ok (negb (has_value (wi_rw v9)))) (
    None)))))))))).

Definition t_WindGroup_parsePkWrongReportPart : option N :=
    chk 908 (let! v1 := (WindGroup_parse "PK" RP_UNKNOWN md_default) in Ok (negb (has_value v1))) (
    chk 909 (let! v2 := (WindGroup_parse "PK" RP_HEADER md_default) in Ok (negb (has_value v2))) (
    chk 910 (let! v3 := (WindGroup_parse "PK" RP_METAR md_default) in Ok (negb (has_value v3))) (
    chk 911 (let! v4 := (WindGroup_parse "PK" RP_TAF md_default) in Ok (negb (has_value v4))) (
    None)))).

Definition t_WindGroup_appendPkAndWnd : option N :=
    step 915 ((WindGroup_parse "PK" RP_RMK md_default)) (fun v1 => 
    chk 916 (Ok (has_value v1)) (
    step 917 (let! v2 := deref v1 in WindGroup_append v2 "WND" RP_RMK md_default) (fun p => let v3 := Some (fst p) in let v4 := snd p in 
    chk 917 (Ok (AppendResult_beq v4 APPENDED)) (
    chk 920 (let! v5 := deref v3 in Ok (DirType_beq (dirType (wi_dir v5)) DT_NOT_REPORTED)) (
    chk 921 (let! v6 := deref v3 in Ok (negb (Speed_isReported (wi_speed v6)))) (
    chk 922 (let! v7 := deref v3 in Ok (negb (Speed_isReported (wi_gust v7)))) (
    chk 923 (let! v8 := deref v3 in Ok (negb (Distance_isReported (wi_height v8)))) (
    chk 924 (let! v9 := deref v3 in Ok (DirType_beq (dirType (wi_vsecBegin v9)) DT_NOT_REPORTED)) (
    chk 925 (let! v10 := deref v3 in Ok (DirType_beq (dirType (wi_vsecEnd v10)) DT_NOT_REPORTED)) (
    chk 926 (let! v11 := deref v3 in Ok (negb (has_value (wi_evTime v11)))) (
    chk 927 (let! v12 := deref v3 in Ok (negb (has_value (wi_rw v12)))) (
    None)))))))))))).

Definition t_WindGroup_appendPkAndOther : option N :=
    step 931 ((MetafTime_fromStringDDHHMM "210530")) (fun v1 => 
    chk 932 (Ok (has_value v1)) (
    step 935 (deref v1) (fun v2 => 
    step 937 ((WindGroup_parse "PK" RP_RMK (md_set_reportTime md_default v2))) (fun v3 => 
    step 938 (let! v4 := deref v3 in WindGroup_append v4 "WSHFT" RP_RMK (md_set_reportTime md_default v2)) (fun p => let v5 := Some (fst p) in let v6 := snd p in 
    chk 938 (Ok (AppendResult_beq v6 GROUP_INVALIDATED)) (
    step 941 ((WindGroup_parse "PK" RP_RMK (md_set_reportTime md_default v2))) (fun v7 => 
    chk 942 (Ok (has_value v7)) (
    step 943 (let! v8 := deref v7 in WindGroup_append v8 "30" RP_RMK (md_set_reportTime md_default v2)) (fun p => let v9 := Some (fst p) in let v10 := snd p in 
    chk 943 (Ok (AppendResult_beq v10 GROUP_INVALIDATED)) (
    step 946 ((WindGroup_parse "PK" RP_RMK (md_set_reportTime md_default v2))) (fun v11 => 
    chk 947 (Ok (has_value v11)) (
    step 948 (let! v12 := deref v11 in WindGroup_append v12 "2345" RP_RMK (md_set_reportTime md_default v2)) (fun p => let v13 := Some (fst p) in let v14 := snd p in 
    chk 948 (Ok (AppendResult_beq v14 GROUP_INVALIDATED)) (
    step 951 ((WindGroup_parse "PK" RP_RMK (md_set_reportTime md_default v2))) (fun v15 => 
    chk 952 (Ok (has_value v15)) (
    step 953 (let! v16 := deref v15 in WindGroup_append v16 "18005KT" RP_RMK (md_set_reportTime md_default v2)) (fun p => let v17 := Some (fst p) in let v18 := snd p in 
    chk 953 (Ok (AppendResult_beq v18 GROUP_INVALIDATED)) (
    step 956 ((WindGroup_parse "PK" RP_RMK (md_set_reportTime md_default v2))) (fun v19 => 
    chk 957 (Ok (has_value v19)) (
    step 958 (let! v20 := deref v19 in WindGroup_append v20 "18005G10KT" RP_RMK (md_set_reportTime md_default v2)) (fun p => let v21 := Some (fst p) in let v22 := snd p in 
    chk 958 (Ok (AppendResult_beq v22 GROUP_INVALIDATED)) (
    step 961 ((WindGroup_parse "PK" RP_RMK (md_set_reportTime md_default v2))) (fun v23 => 
    chk 962 (Ok (has_value v23)) (
    step 963 (let! v24 := deref v23 in WindGroup_append v24 "320V340" RP_RMK (md_set_reportTime md_default v2)) (fun p => let v25 := Some (fst p) in let v26 := snd p in 
    chk 963 (Ok (AppendResult_beq v26 GROUP_INVALIDATED)) (
    step 966 ((WindGroup_parse "PK" RP_RMK (md_set_reportTime md_default v2))) (fun v27 => 
    chk 967 (Ok (has_value v27)) (
    step 968 (let! v28 := deref v27 in WindGroup_append v28 "PK" RP_RMK (md_set_reportTime md_default v2)) (fun p => let v29 := Some (fst p) in let v30 := snd p in 
    chk 968 (Ok (AppendResult_beq v30 GROUP_INVALIDATED)) (
    step 971 ((WindGroup_parse "PK" RP_RMK (md_set_reportTime md_default v2))) (fun v31 => 
    chk 972 (Ok (has_value v31)) (
    step 973 (let! v32 := deref v31 in WindGroup_append v32 "WSHFT" RP_RMK (md_set_reportTime md_default v2)) (fun p => let v33 := Some (fst p) in let v34 := snd p in 
    chk 973 (Ok (AppendResult_beq v34 GROUP_INVALIDATED)) (
    step 976 ((WindGroup_parse "PK" RP_RMK (md_set_reportTime md_default v2))) (fun v35 => 
    chk 977 (Ok (has_value v35)) (
    step 978 (let! v36 := deref v35 in WindGroup_append v36 "FROPA" RP_RMK (md_set_reportTime md_default v2)) (fun p => let v37 := Some (fst p) in let v38 := snd p in 
    chk 978 (Ok (AppendResult_beq v38 GROUP_INVALIDATED)) (
    step 981 ((WindGroup_parse "PK" RP_RMK (md_set_reportTime md_default v2))) (fun v39 => 
    chk 982 (Ok (has_value v39)) (
    step 983 (let! v40 := deref v39 in WindGroup_append v40 "31027/2119" RP_RMK (md_set_reportTime md_default v2)) (fun p => let v41 := Some (fst p) in let v42 := snd p in 
    chk 983 (Ok (AppendResult_beq v42 GROUP_INVALIDATED)) (
    step 986 ((WindGroup_parse "PK" RP_RMK (md_set_reportTime md_default v2))) (fun v43 => 
    chk 987 (Ok (has_value v43)) (
    step 988 (let! v44 := deref v43 in WindGroup_append v44 "31027/19" RP_RMK (md_set_reportTime md_default v2)) (fun p => let v45 := Some (fst p) in let v46 := snd p in 
    chk 988 (Ok (AppendResult_beq v46 GROUP_INVALIDATED)) (
    step 991 ((WindGroup_parse "PK" RP_RMK (md_set_reportTime md_default v2))) (fun v47 => 
    chk 992 (Ok (has_value v47)) (
    step 993 (let! v48 := deref v47 in WindGroup_append v48 "WS020/18025KT" RP_RMK (md_set_reportTime md_default v2)) (fun p => let v49 := Some (fst p) in let v50 := snd p in 
    chk 993 (Ok (AppendResult_beq v50 GROUP_INVALIDATED)) (
    step 996 ((WindGroup_parse "PK" RP_RMK (md_set_reportTime md_default v2))) (fun v51 => 
    chk 997 (Ok (has_value v51)) (
    step 998 (let! v52 := deref v51 in WindGroup_append v52 "/////KT" RP_RMK (md_set_reportTime md_default v2)) (fun p => let v53 := Some (fst p) in let v54 := snd p in 
    chk 998 (Ok (AppendResult_beq v54 GROUP_INVALIDATED)) (
    step 1001 ((WindGroup_parse "PK" RP_RMK (md_set_reportTime md_default v2))) (fun v55 => 
    chk 1002 (Ok (has_value v55)) (
    step 1003 (let! v56 := deref v55 in WindGroup_append v56 "WSCONDS" RP_RMK (md_set_reportTime md_default v2)) (fun p => let v57 := Some (fst p) in let v58 := snd p in 
    chk 1003 (Ok (AppendResult_beq v58 GROUP_INVALIDATED)) (
    step 1006 ((WindGroup_parse "PK" RP_RMK (md_set_reportTime md_default v2))) (fun v59 => 
    chk 1007 (Ok (has_value v59)) (
    step 1008 (let! v60 := deref v59 in WindGroup_append v60 "WS" RP_RMK (md_set_reportTime md_default v2)) (fun p => let v61 := Some (fst p) in let v62 := snd p in 
    chk 1008 (Ok (AppendResult_beq v62 GROUP_INVALIDATED)) (
    step 1011 ((WindGroup_parse "PK" RP_RMK (md_set_reportTime md_default v2))) (fun v63 => 
    chk 1012 (Ok (has_value v63)) (
    step 1013 (let! v64 := deref v63 in WindGroup_append v64 "ALL" RP_RMK (md_set_reportTime md_default v2)) (fun p => let v65 := Some (fst p) in let v66 := snd p in 
    chk 1013 (Ok (AppendResult_beq v66 GROUP_INVALIDATED)) (
    step 1016 ((WindGroup_parse "PK" RP_RMK (md_set_reportTime md_default v2))) (fun v67 => 
    chk 1017 (Ok (has_value v67)) (
    step 1018 (let! v68 := deref v67 in WindGroup_append v68 "RWY" RP_RMK (md_set_reportTime md_default v2)) (fun p => let v69 := Some (fst p) in let v70 := snd p in 
    chk 1018 (Ok (AppendResult_beq v70 GROUP_INVALIDATED)) (
    step 1021 ((WindGroup_parse "PK" RP_RMK (md_set_reportTime md_default v2))) (fun v71 => 
    chk 1022 (Ok (has_value v71)) (
    step 1023 (let! v72 := deref v71 in WindGroup_append v72 "R32" RP_RMK (md_set_reportTime md_default v2)) (fun p => let v73 := Some (fst p) in let v74 := snd p in 
    chk 1023 (Ok (AppendResult_beq v74 GROUP_INVALIDATED)) (
    step 1026 ((WindGroup_parse "PK" RP_RMK (md_set_reportTime md_default v2))) (fun v75 => 
    chk 1027 (Ok (has_value v75)) (
    step 1028 (let! v76 := deref v75 in WindGroup_append v76 "RWY32" RP_RMK (md_set_reportTime md_default v2)) (fun p => let v77 := Some (fst p) in let v78 := snd p in 
    chk 1028 (Ok (AppendResult_beq v78 GROUP_INVALIDATED)) (
    None)))))))))))))))))))))))))))))))))))))))))))))))))))))))))))))))))))))))))))))).

Definition t_WindGroup_appendPkWndAndOther : option N :=
    step 1033 ((MetafTime_fromStringDDHHMM "210530")) (fun v1 => 
    chk 1034 (Ok (has_value v1)) (
    step 1037 (deref v1) (fun v2 => 
    step 1039 ((WindGroup_parse "PK" RP_RMK (md_set_reportTime md_default v2))) (fun v3 => 
    chk 1040 (Ok (has_value v3)) (
    step 1041 (let! v4 := deref v3 in WindGroup_append v4 "WND" RP_RMK (md_set_reportTime md_default v2)) (fun p => let v5 := Some (fst p) in let v6 := snd p in 
    chk 1041 (Ok (AppendResult_beq v6 APPENDED)) (
    step 1043 (let! v7 := deref v5 in WindGroup_append v7 "WSHFT" RP_RMK (md_set_reportTime md_default v2)) (fun p => let v8 := Some (fst p) in let v9 := snd p in 
    chk 1043 (Ok (AppendResult_beq v9 GROUP_INVALIDATED)) (
    step 1046 ((WindGroup_parse "PK" RP_RMK (md_set_reportTime md_default v2))) (fun v10 => 
    chk 1047 (Ok (has_value v10)) (
    step 1048 (let! v11 := deref v10 in WindGroup_append v11 "WND" RP_RMK (md_set_reportTime md_default v2)) (fun p => let v12 := Some (fst p) in let v13 := snd p in 
    chk 1048 (Ok (AppendResult_beq v13 APPENDED)) (
    step 1050 (let! v14 := deref v12 in WindGroup_append v14 "30" RP_RMK (md_set_reportTime md_default v2)) (fun p => let v15 := Some (fst p) in let v16 := snd p in 
    chk 1050 (Ok (AppendResult_beq v16 GROUP_INVALIDATED)) (
    step 1053 ((WindGroup_parse "PK" RP_RMK (md_set_reportTime md_default v2))) (fun v17 => 
    chk 1054 (Ok (has_value v17)) (
    step 1055 (let! v18 := deref v17 in WindGroup_append v18 "WND" RP_RMK (md_set_reportTime md_default v2)) (fun p => let v19 := Some (fst p) in let v20 := snd p in 
    chk 1055 (Ok (AppendResult_beq v20 APPENDED)) (
    step 1057 (let! v21 := deref v19 in WindGroup_append v21 "2345" RP_RMK (md_set_reportTime md_default v2)) (fun p => let v22 := Some (fst p) in let v23 := snd p in 
    chk 1057 (Ok (AppendResult_beq v23 GROUP_INVALIDATED)) (
    step 1060 ((WindGroup_parse "PK" RP_RMK (md_set_reportTime md_default v2))) (fun v24 => 
    chk 1061 (Ok (has_value v24)) (
    step 1062 (let! v25 := deref v24 in WindGroup_append v25 "WND" RP_RMK (md_set_reportTime md_default v2)) (fun p => let v26 := Some (fst p) in let v27 := snd p in 
    chk 1062 (Ok (AppendResult_beq v27 APPENDED)) (
    step 1064 (let! v28 := deref v26 in WindGroup_append v28 "18005KT" RP_RMK (md_set_reportTime md_default v2)) (fun p => let v29 := Some (fst p) in let v30 := snd p in 
    chk 1064 (Ok (AppendResult_beq v30 GROUP_INVALIDATED)) (
    step 1067 ((WindGroup_parse "PK" RP_RMK (md_set_reportTime md_default v2))) (fun v31 => 
    chk 1068 (Ok (has_value v31)) (
    step 1069 (let! v32 := deref v31 in WindGroup_append v32 "WND" RP_RMK (md_set_reportTime md_default v2)) (fun p => let v33 := Some (fst p) in let v34 := snd p in 
    chk 1069 (Ok (AppendResult_beq v34 APPENDED)) (
    step 1071 (let! v35 := deref v33 in WindGroup_append v35 "18005G10KT" RP_RMK (md_set_reportTime md_default v2)) (fun p => let v36 := Some (fst p) in let v37 := snd p in 
    chk 1071 (Ok (AppendResult_beq v37 GROUP_INVALIDATED)) (
    step 1074 ((WindGroup_parse "PK" RP_RMK (md_set_reportTime md_default v2))) (fun v38 => 
    chk 1075 (Ok (has_value v38)) (
    step 1076 (let! v39 := deref v38 in WindGroup_append v39 "WND" RP_RMK (md_set_reportTime md_default v2)) (fun p => let v40 := Some (fst p) in let v41 := snd p in 
    chk 1076 (Ok (AppendResult_beq v41 APPENDED)) (
    step 1078 (let! v42 := deref v40 in WindGroup_append v42 "320V340" RP_RMK (md_set_reportTime md_default v2)) (fun p => let v43 := Some (fst p) in let v44 := snd p in 
    chk 1078 (Ok (AppendResult_beq v44 GROUP_INVALIDATED)) (
    step 1081 ((WindGroup_parse "PK" RP_RMK (md_set_reportTime md_default v2))) (fun v45 => 
    chk 1082 (Ok (has_value v45)) (
    step 1083 (let! v46 := deref v45 in WindGroup_append v46 "WND" RP_RMK (md_set_reportTime md_default v2)) (fun p => let v47 := Some (fst p) in let v48 := snd p in 
    chk 1083 (Ok (AppendResult_beq v48 APPENDED)) (
    step 1085 (let! v49 := deref v47 in WindGroup_append v49 "PK" RP_RMK (md_set_reportTime md_default v2)) (fun p => let v50 := Some (fst p) in let v51 := snd p in 
    chk 1085 (Ok (AppendResult_beq v51 GROUP_INVALIDATED)) (
    step 1088 ((WindGroup_parse "PK" RP_RMK (md_set_reportTime md_default v2))) (fun v52 => 
    chk 1089 (Ok (has_value v52)) (
    step 1090 (let! v53 := deref v52 in WindGroup_append v53 "WND" RP_RMK (md_set_reportTime md_default v2)) (fun p => let v54 := Some (fst p) in let v55 := snd p in 
    chk 1090 (Ok (AppendResult_beq v55 APPENDED)) (
    step 1092 (let! v56 := deref v54 in WindGroup_append v56 "WND" RP_RMK (md_set_reportTime md_default v2)) (fun p => let v57 := Some (fst p) in let v58 := snd p in 
    chk 1092 (Ok (AppendResult_beq v58 GROUP_INVALIDATED)) (
    step 1095 ((WindGroup_parse "PK" RP_RMK (md_set_reportTime md_default v2))) (fun v59 => 
    chk 1096 (Ok (has_value v59)) (
    step 1097 (let! v60 := deref v59 in WindGroup_append v60 "WND" RP_RMK (md_set_reportTime md_default v2)) (fun p => let v61 := Some (fst p) in let v62 := snd p in 
    chk 1097 (Ok (AppendResult_beq v62 APPENDED)) (
    step 1099 (let! v63 := deref v61 in WindGroup_append v63 "WSHFT" RP_RMK (md_set_reportTime md_default v2)) (fun p => let v64 := Some (fst p) in let v65 := snd p in 
    chk 1099 (Ok (AppendResult_beq v65 GROUP_INVALIDATED)) (
    step 1102 ((WindGroup_parse "PK" RP_RMK (md_set_reportTime md_default v2))) (fun v66 => 
    chk 1103 (Ok (has_value v66)) (
    step 1104 (let! v67 := deref v66 in WindGroup_append v67 "WND" RP_RMK (md_set_reportTime md_default v2)) (fun p => let v68 := Some (fst p) in let v69 := snd p in 
    chk 1104 (Ok (AppendResult_beq v69 APPENDED)) (
    step 1106 (let! v70 := deref v68 in WindGroup_append v70 "FROPA" RP_RMK (md_set_reportTime md_default v2)) (fun p => let v71 := Some (fst p) in let v72 := snd p in 
    chk 1106 (Ok (AppendResult_beq v72 GROUP_INVALIDATED)) (
    step 1109 ((WindGroup_parse "PK" RP_RMK (md_set_reportTime md_default v2))) (fun v73 => 
    chk 1110 (Ok (has_value v73)) (
    step 1111 (let! v74 := deref v73 in WindGroup_append v74 "WND" RP_RMK (md_set_reportTime md_default v2)) (fun p => let v75 := Some (fst p) in let v76 := snd p in 
    chk 1111 (Ok (AppendResult_beq v76 APPENDED)) (
    step 1113 (let! v77 := deref v75 in WindGroup_append v77 "3127/2119" RP_RMK (md_set_reportTime md_default v2)) (fun p => let v78 := Some (fst p) in let v79 := snd p in 
    chk 1113 (Ok (AppendResult_beq v79 GROUP_INVALIDATED)) (
    step 1116 ((WindGroup_parse "PK" RP_RMK (md_set_reportTime md_default v2))) (fun v80 => 
    chk 1117 (Ok (has_value v80)) (
    step 1118 (let! v81 := deref v80 in WindGroup_append v81 "WND" RP_RMK (md_set_reportTime md_default v2)) (fun p => let v82 := Some (fst p) in let v83 := snd p in 
    chk 1118 (Ok (AppendResult_beq v83 APPENDED)) (
    step 1120 (let! v84 := deref v82 in WindGroup_append v84 "031027/2119" RP_RMK (md_set_reportTime md_default v2)) (fun p => let v85 := Some (fst p) in let v86 := snd p in 
    chk 1120 (Ok (AppendResult_beq v86 GROUP_INVALIDATED)) (
    step 1123 ((WindGroup_parse "PK" RP_RMK (md_set_reportTime md_default v2))) (fun v87 => 
    chk 1124 (Ok (has_value v87)) (
    step 1125 (let! v88 := deref v87 in WindGroup_append v88 "WND" RP_RMK (md_set_reportTime md_default v2)) (fun p => let v89 := Some (fst p) in let v90 := snd p in 
    chk 1125 (Ok (AppendResult_beq v90 APPENDED)) (
    step 1127 (let! v91 := deref v89 in WindGroup_append v91 "31027/02119" RP_RMK (md_set_reportTime md_default v2)) (fun p => let v92 := Some (fst p) in let v93 := snd p in 
    chk 1127 (Ok (AppendResult_beq v93 GROUP_INVALIDATED)) (
    step 1130 ((WindGroup_parse "PK" RP_RMK (md_set_reportTime md_default v2))) (fun v94 => 
    chk 1131 (Ok (has_value v94)) (
    step 1132 (let! v95 := deref v94 in WindGroup_append v95 "WND" RP_RMK (md_set_reportTime md_default v2)) (fun p => let v96 := Some (fst p) in let v97 := snd p in 
    chk 1132 (Ok (AppendResult_beq v97 APPENDED)) (
    step 1134 (let! v98 := deref v96 in WindGroup_append v98 "31027/219" RP_RMK (md_set_reportTime md_default v2)) (fun p => let v99 := Some (fst p) in let v100 := snd p in 
    chk 1134 (Ok (AppendResult_beq v100 GROUP_INVALIDATED)) (
    step 1137 ((WindGroup_parse "PK" RP_RMK (md_set_reportTime md_default v2))) (fun v101 => 
    chk 1138 (Ok (has_value v101)) (
    step 1139 (let! v102 := deref v101 in WindGroup_append v102 "WND" RP_RMK (md_set_reportTime md_default v2)) (fun p => let v103 := Some (fst p) in let v104 := snd p in 
    chk 1139 (Ok (AppendResult_beq v104 APPENDED)) (
    step 1141 (let! v105 := deref v103 in WindGroup_append v105 "31027/2" RP_RMK (md_set_reportTime md_default v2)) (fun p => let v106 := Some (fst p) in let v107 := snd p in 
    chk 1141 (Ok (AppendResult_beq v107 GROUP_INVALIDATED)) (
    step 1144 ((WindGroup_parse "PK" RP_RMK (md_set_reportTime md_default v2))) (fun v108 => 
    chk 1145 (Ok (has_value v108)) (
    step 1146 (let! v109 := deref v108 in WindGroup_append v109 "WND" RP_RMK (md_set_reportTime md_default v2)) (fun p => let v110 := Some (fst p) in let v111 := snd p in 
    chk 1146 (Ok (AppendResult_beq v111 APPENDED)) (
    step 1148 (let! v112 := deref v110 in WindGroup_append v112 "A1027/2119" RP_RMK (md_set_reportTime md_default v2)) (fun p => let v113 := Some (fst p) in let v114 := snd p in 
    chk 1148 (Ok (AppendResult_beq v114 GROUP_INVALIDATED)) (
    step 1151 ((WindGroup_parse "PK" RP_RMK (md_set_reportTime md_default v2))) (fun v115 => 
    chk 1152 (Ok (has_value v115)) (
    step 1153 (let! v116 := deref v115 in WindGroup_append v116 "WND" RP_RMK (md_set_reportTime md_default v2)) (fun p => let v117 := Some (fst p) in let v118 := snd p in 
    chk 1153 (Ok (AppendResult_beq v118 APPENDED)) (
    step 1155 (let! v119 := deref v117 in WindGroup_append v119 "31027/A119" RP_RMK (md_set_reportTime md_default v2)) (fun p => let v120 := Some (fst p) in let v121 := snd p in 
    chk 1155 (Ok (AppendResult_beq v121 GROUP_INVALIDATED)) (
    step 1158 ((WindGroup_parse "PK" RP_RMK (md_set_reportTime md_default v2))) (fun v122 => 
    chk 1159 (Ok (has_value v122)) (
    step 1160 (let! v123 := deref v122 in WindGroup_append v123 "WND" RP_RMK (md_set_reportTime md_default v2)) (fun p => let v124 := Some (fst p) in let v125 := snd p in 
    chk 1160 (Ok (AppendResult_beq v125 APPENDED)) (
    step 1162 (let! v126 := deref v124 in WindGroup_append v126 "WS020/18025KT" RP_RMK (md_set_reportTime md_default v2)) (fun p => let v127 := Some (fst p) in let v128 := snd p in 
    chk 1162 (Ok (AppendResult_beq v128 GROUP_INVALIDATED)) (
    step 1165 ((WindGroup_parse "PK" RP_RMK (md_set_reportTime md_default v2))) (fun v129 => 
    chk 1166 (Ok (has_value v129)) (
    step 1167 (let! v130 := deref v129 in WindGroup_append v130 "WND" RP_RMK (md_set_reportTime md_default v2)) (fun p => let v131 := Some (fst p) in let v132 := snd p in 
    chk 1167 (Ok (AppendResult_beq v132 APPENDED)) (
    step 1169 (let! v133 := deref v131 in WindGroup_append v133 "/////KT" RP_RMK (md_set_reportTime md_default v2)) (fun p => let v134 := Some (fst p) in let v135 := snd p in 
    chk 1169 (Ok (AppendResult_beq v135 GROUP_INVALIDATED)) (
    step 1172 ((WindGroup_parse "PK" RP_RMK (md_set_reportTime md_default v2))) (fun v136 => 
    chk 1173 (Ok (has_value v136)) (
    step 1174 (let! v137 := deref v136 in WindGroup_append v137 "WND" RP_RMK (md_set_reportTime md_default v2)) (fun p => let v138 := Some (fst p) in let v139 := snd p in 
    chk 1174 (Ok (AppendResult_beq v139 APPENDED)) (
    step 1176 (let! v140 := deref v138 in WindGroup_append v140 "WSCONDS" RP_RMK (md_set_reportTime md_default v2)) (fun p => let v141 := Some (fst p) in let v142 := snd p in 
    chk 1176 (Ok (AppendResult_beq v142 GROUP_INVALIDATED)) (
    step 1179 ((WindGroup_parse "PK" RP_RMK (md_set_reportTime md_default v2))) (fun v143 => 
    chk 1180 (Ok (has_value v143)) (
    step 1181 (let! v144 := deref v143 in WindGroup_append v144 "WND" RP_RMK (md_set_reportTime md_default v2)) (fun p => let v145 := Some (fst p) in let v146 := snd p in 
    chk 1181 (Ok (AppendResult_beq v146 APPENDED)) (
    step 1183 (let! v147 := deref v145 in WindGroup_append v147 "WS" RP_RMK (md_set_reportTime md_default v2)) (fun p => let v148 := Some (fst p) in let v149 := snd p in 
    chk 1183 (Ok (AppendResult_beq v149 GROUP_INVALIDATED)) (
    step 1186 ((WindGroup_parse "PK" RP_RMK (md_set_reportTime md_default v2))) (fun v150 => 
    chk 1187 (Ok (has_value v150)) (
    step 1188 (let! v151 := deref v150 in WindGroup_append v151 "WND" RP_RMK (md_set_reportTime md_default v2)) (fun p => let v152 := Some (fst p) in let v153 := snd p in 
    chk 1188 (Ok (AppendResult_beq v153 APPENDED)) (
    step 1190 (let! v154 := deref v152 in WindGroup_append v154 "ALL" RP_RMK (md_set_reportTime md_default v2)) (fun p => let v155 := Some (fst p) in let v156 := snd p in 
    chk 1190 (Ok (AppendResult_beq v156 GROUP_INVALIDATED)) (
    step 1193 ((WindGroup_parse "PK" RP_RMK (md_set_reportTime md_default v2))) (fun v157 => 
    chk 1194 (Ok (has_value v157)) (
    step 1195 (let! v158 := deref v157 in WindGroup_append v158 "WND" RP_RMK (md_set_reportTime md_default v2)) (fun p => let v159 := Some (fst p) in let v160 := snd p in 
    chk 1195 (Ok (AppendResult_beq v160 APPENDED)) (
    step 1197 (let! v161 := deref v159 in WindGroup_append v161 "RWY" RP_RMK (md_set_reportTime md_default v2)) (fun p => let v162 := Some (fst p) in let v163 := snd p in 
    chk 1197 (Ok (AppendResult_beq v163 GROUP_INVALIDATED)) (
    step 1200 ((WindGroup_parse "PK" RP_RMK (md_set_reportTime md_default v2))) (fun v164 => 
    chk 1201 (Ok (has_value v164)) (
    step 1202 (let! v165 := deref v164 in WindGroup_append v165 "WND" RP_RMK (md_set_reportTime md_default v2)) (fun p => let v166 := Some (fst p) in let v167 := snd p in 
    chk 1202 (Ok (AppendResult_beq v167 APPENDED)) (
    step 1204 (let! v168 := deref v166 in WindGroup_append v168 "R32" RP_RMK (md_set_reportTime md_default v2)) (fun p => let v169 := Some (fst p) in let v170 := snd p in 
    chk 1204 (Ok (AppendResult_beq v170 GROUP_INVALIDATED)) (
    step 1207 ((WindGroup_parse "PK" RP_RMK (md_set_reportTime md_default v2))) (fun v171 => 
    chk 1208 (Ok (has_value v171)) (
    step 1209 (let! v172 := deref v171 in WindGroup_append v172 "WND" RP_RMK (md_set_reportTime md_default v2)) (fun p => let v173 := Some (fst p) in let v174 := snd p in 
    chk 1209 (Ok (AppendResult_beq v174 APPENDED)) (
    step 1211 (let! v175 := deref v173 in WindGroup_append v175 "RWY32" RP_RMK (md_set_reportTime md_default v2)) (fun p => let v176 := Some (fst p) in let v177 := snd p in 
    chk 1211 (Ok (AppendResult_beq v177 GROUP_INVALIDATED)) (
    None))))))))))))))))))))))))))))))))))))))))))))))))))))))))))))))))))))))))))))))))))))))))))))))))))))))))))))))))))))))))))))))))))))))))))))))))))))))))).

Definition t_WindGroup_appendPkWndDirSpeedHourMinute : option N :=
    step 1217 ((WindGroup_parse "PK" RP_RMK md_default)) (fun v1 => 
    chk 1218 (Ok (has_value v1)) (
    step 1219 (let! v2 := deref v1 in WindGroup_append v2 "WND" RP_RMK md_default) (fun p => let v3 := Some (fst p) in let v4 := snd p in 
    chk 1219 (Ok (AppendResult_beq v4 APPENDED)) (
    step 1220 (let! v5 := deref v3 in WindGroup_append v5 "31076/1547" RP_RMK md_default) (fun p => let v6 := Some (fst p) in let v7 := snd p in 
    chk 1220 (Ok (AppendResult_beq v7 APPENDED)) (
    chk 1222 (let! v8 := deref v6 in Ok (DirType_beq (dirType (wi_dir v8)) DT_VALUE_DEGREES)) (
    chk 1223 (let! v9 := deref v6 in Ok (has_value (Direction_degrees (wi_dir v9)))) (
    chk 1224 (let! v10 := deref v6 in let! v11 := deref (Direction_degrees (wi_dir v10)) in Ok (N.eqb v11 310%N)) (
    chk 1225 (let! v12 := deref v6 in Ok (has_value (speedValue (wi_speed v12)))) (
    chk 1226 (let! v13 := deref v6 in Ok (SpeedUnit_beq (speedUnit (wi_speed v13)) KNOTS)) (
    chk 1227 (let! v14 := deref v6 in let! v15 := deref (speedValue (wi_speed v14)) in Ok (N.eqb v15 76%N)) (
    chk 1228 (let! v16 := deref v6 in Ok (negb (has_value (speedValue (wi_gust v16))))) (
    chk 1229 (let! v17 := deref v6 in Ok (negb (Distance_isReported (wi_height v17)))) (
    chk 1230 (let! v18 := deref v6 in Ok (DirType_beq (dirType (wi_vsecBegin v18)) DT_NOT_REPORTED)) (
    chk 1231 (let! v19 := deref v6 in Ok (DirType_beq (dirType (wi_vsecEnd v19)) DT_NOT_REPORTED)) (
    chk 1233 (let! v20 := deref v6 in Ok (has_value (wi_evTime v20))) (
    chk 1234 (let! v21 := deref v6 in let! v22 := deref (wi_evTime v21) in Ok (negb (has_value (dayValue v22)))) (
    chk 1235 (let! v23 := deref v6 in let! v24 := deref (wi_evTime v23) in Ok (N.eqb (hourValue v24) 15%N)) (
    chk 1236 (let! v25 := deref v6 in let! v26 := deref (wi_evTime v25) in Ok (N.eqb (minuteValue v26) 47%N)) (
    chk 1238 (let! v27 := deref v6 in Ok (negb (has_value (wi_rw v27)))) (
    None))))))))))))))))))))).

Definition t_WindGroup_appendPkWndDirSpeedMinute : option N :=
    step 1242 ((MetafTime_fromStringDDHHMM "211156")) (fun v1 => 
    chk 1243 (Ok (has_value v1)) (
    step 1245 (deref v1) (fun v2 => 
    step 1247 ((WindGroup_parse "PK" RP_RMK (md_set_reportTime md_default v2))) (fun v3 => 
    chk 1248 (Ok (has_value v3)) (
    step 1250 (let! v4 := deref v3 in WindGroup_append v4 "WND" RP_RMK (md_set_reportTime md_default v2)) (fun p => let v5 := Some (fst p) in let v6 := snd p in 
    chk 1250 (Ok (AppendResult_beq v6 APPENDED)) (
    step 1252 (let! v7 := deref v5 in WindGroup_append v7 "24029/06" RP_RMK (md_set_reportTime md_default v2)) (fun p => let v8 := Some (fst p) in let v9 := snd p in 
    chk 1252 (Ok (AppendResult_beq v9 APPENDED)) (
    chk 1255 (let! v10 := deref v8 in Ok (WiType_beq (wi_type v10) Wi_PEAK_WIND)) (
    chk 1257 (let! v11 := deref v8 in Ok (DirType_beq (dirType (wi_dir v11)) DT_VALUE_DEGREES)) (
    chk 1258 (let! v12 := deref v8 in Ok (has_value (Direction_degrees (wi_dir v12)))) (
    chk 1259 (let! v13 := deref v8 in let! v14 := deref (Direction_degrees (wi_dir v13)) in Ok (N.eqb v14 240%N)) (
    chk 1260 (let! v15 := deref v8 in Ok (has_value (speedValue (wi_speed v15)))) (
    chk 1261 (let! v16 := deref v8 in Ok (SpeedUnit_beq (speedUnit (wi_speed v16)) KNOTS)) (
    chk 1262 (let! v17 := deref v8 in let! v18 := deref (speedValue (wi_speed v17)) in Ok (N.eqb v18 29%N)) (
    chk 1263 (let! v19 := deref v8 in Ok (negb (has_value (speedValue (wi_gust v19))))) (
    chk 1264 (let! v20 := deref v8 in Ok (negb (Distance_isReported (wi_height v20)))) (
    chk 1265 (let! v21 := deref v8 in Ok (DirType_beq (dirType (wi_vsecBegin v21)) DT_NOT_REPORTED)) (
    chk 1266 (let! v22 := deref v8 in Ok (DirType_beq (dirType (wi_vsecEnd v22)) DT_NOT_REPORTED)) (
    chk 1268 (let! v23 := deref v8 in Ok (has_value (wi_evTime v23))) (
    chk 1269 (let! v24 := deref v8 in let! v25 := deref (wi_evTime v24) in Ok (negb (has_value (dayValue v25)))) (
    chk 1270 (let! v26 := deref v8 in let! v27 := deref (wi_evTime v26) in let! v28 := deref v1 in Ok (N.eqb (hourValue v27) (hourValue v28))) (
    chk 1271 (let! v29 := deref v8 in let! v30 := deref (wi_evTime v29) in Ok (N.eqb (minuteValue v30) 6%N)) (
    chk 1273 (let! v31 := deref v8 in Ok (negb (has_value (wi_rw v31)))) (
    None))))))))))))))))))))))))).

Definition t_WindGroup_appendPkWndDirSpeedMinuteNoReportData : option N :=
    step 1279 ((WindGroup_parse "PK" RP_RMK md_default)) (fun v1 => 
    chk 1280 (Ok (has_value v1)) (
    step 1282 (let! v2 := deref v1 in WindGroup_append v2 "WND" RP_RMK md_default) (fun p => let v3 := Some (fst p) in let v4 := snd p in 
    chk 1282 (Ok (AppendResult_beq v4 APPENDED)) (
    step 1284 (let! v5 := deref v3 in WindGroup_append v5 "24029/06" RP_RMK md_default) (fun p => let v6 := Some (fst p) in let v7 := snd p in 
    chk 1284 (Ok (AppendResult_beq v7 GROUP_INVALIDATED)) (
    None)))))).

Definition t_WindGroup_parseWs : option N :=
    step 1295 ((WindGroup_parse "WS" RP_METAR md_default)) (fun v1 => 
    chk 1296 (Ok (has_value v1)) (
    chk 1297 (let! v2 := deref v1 in Ok (WiType_beq (wi_type v2) Wi_WIND_SHEAR_IN_LOWER_LAYERS)) (
    chk 1298 (let! v3 := deref v1 in Ok (DirType_beq (dirType (wi_dir v3)) DT_NOT_REPORTED)) (
    chk 1299 (let! v4 := deref v1 in Ok (negb (Speed_isReported (wi_speed v4)))) (
    chk 1300 (let! v5 := deref v1 in Ok (negb (Speed_isReported (wi_gust v5)))) (
    chk 1301 (let! v6 := deref v1 in Ok (negb (Distance_isReported (wi_height v6)))) (
    chk 1302 (let! v7 := deref v1 in Ok (DirType_beq (dirType (wi_vsecBegin v7)) DT_NOT_REPORTED)) (
    chk 1303 (let! v8 := deref v1 in Ok (DirType_beq (dirType (wi_vsecEnd v8)) DT_NOT_REPORTED)) (
    chk 1304 (let! v9 := deref v1 in Ok (negb (has_value (wi_evTime v9)))) (
    chk 1305 (let! v10 := deref v1 in Ok (negb (has_value (wi_rw v10)))) (
    None))))))))))).

Definition t_WindGroup_parseWsAll : option N :=
    step 1309 ((WindGroup_parse "WS" RP_METAR md_default)) (fun v1 => 
    chk 1310 (Ok (has_value v1)) (
    step 1312 (let! v2 := deref v1 in WindGroup_append v2 "ALL" RP_METAR md_default) (fun p => let v3 := Some (fst p) in let v4 := snd p in 
    chk 1312 (Ok (AppendResult_beq v4 APPENDED)) (
    chk 1314 (let! v5 := deref v3 in Ok (WiType_beq (wi_type v5) Wi_WIND_SHEAR_IN_LOWER_LAYERS)) (
    chk 1315 (let! v6 := deref v3 in Ok (DirType_beq (dirType (wi_dir v6)) DT_NOT_REPORTED)) (
    chk 1316 (let! v7 := deref v3 in Ok (negb (Speed_isReported (wi_speed v7)))) (
    chk 1317 (let! v8 := deref v3 in Ok (negb (Speed_isReported (wi_gust v8)))) (
    chk 1318 (let! v9 := deref v3 in Ok (negb (Distance_isReported (wi_height v9)))) (
    chk 1319 (let! v10 := deref v3 in Ok (DirType_beq (dirType (wi_vsecBegin v10)) DT_NOT_REPORTED)) (
    chk 1320 (let! v11 := deref v3 in Ok (DirType_beq (dirType (wi_vsecEnd v11)) DT_NOT_REPORTED)) (
    chk 1321 (let! v12 := deref v3 in Ok (negb (has_value (wi_evTime v12)))) (
    chk 1322 (let! v13 := deref v3 in Ok (negb (has_value (wi_rw v13)))) (
    None))))))))))))).

Definition t_WindGroup_parseWsAllRwy : option N :=
    step 1326 ((WindGroup_parse "WS" RP_METAR md_default)) (fun v1 => 
    chk 1327 (Ok (has_value v1)) (
    step 1329 (let! v2 := deref v1 in WindGroup_append v2 "ALL" RP_METAR md_default) (fun p => let v3 := Some (fst p) in let v4 := snd p in 
    chk 1329 (Ok (AppendResult_beq v4 APPENDED)) (
    step 1330 (let! v5 := deref v3 in WindGroup_append v5 "RWY" RP_METAR md_default) (fun p => let v6 := Some (fst p) in let v7 := snd p in 
    chk 1330 (Ok (AppendResult_beq v7 APPENDED)) (
    chk 1332 (let! v8 := deref v6 in Ok (WiType_beq (wi_type v8) Wi_WIND_SHEAR_IN_LOWER_LAYERS)) (
    chk 1333 (let! v9 := deref v6 in Ok (DirType_beq (dirType (wi_dir v9)) DT_NOT_REPORTED)) (
    chk 1334 (let! v10 := deref v6 in Ok (negb (Speed_isReported (wi_speed v10)))) (
    chk 1335 (let! v11 := deref v6 in Ok (negb (Speed_isReported (wi_gust v11)))) (
    chk 1336 (let! v12 := deref v6 in Ok (negb (Distance_isReported (wi_height v12)))) (
    chk 1337 (let! v13 := deref v6 in Ok (DirType_beq (dirType (wi_vsecBegin v13)) DT_NOT_REPORTED)) (
    chk 1338 (let! v14 := deref v6 in Ok (DirType_beq (dirType (wi_vsecEnd v14)) DT_NOT_REPORTED)) (
    chk 1339 (let! v15 := deref v6 in Ok (negb (has_value (wi_evTime v15)))) (
    chk 1340 (let! v16 := deref v6 in Ok (has_value (wi_rw v16))) (
    chk 1341 (let! v17 := deref v6 in let! v18 := deref (wi_rw v17) in Ok (Runway_isAllRunways v18)) (
    None)))))))))))))))).

Definition t_WindGroup_appendWsAndOther : option N :=
    step 1345 ((MetafTime_fromStringDDHHMM "210530")) (fun v1 => 
    chk 1346 (Ok (has_value v1)) (
    step 1349 (deref v1) (fun v2 => 
    step 1351 ((WindGroup_parse "WS" RP_METAR (md_set_reportTime md_default v2))) (fun v3 => 
    chk 1352 (Ok (has_value v3)) (
    step 1353 (let! v4 := deref v3 in WindGroup_append v4 "WSHFT" RP_METAR (md_set_reportTime md_default v2)) (fun p => let v5 := Some (fst p) in let v6 := snd p in 
    chk 1353 (Ok (AppendResult_beq v6 GROUP_INVALIDATED)) (
    step 1356 ((WindGroup_parse "WS" RP_METAR (md_set_reportTime md_default v2))) (fun v7 => 
    chk 1357 (Ok (has_value v7)) (
    step 1358 (let! v8 := deref v7 in WindGroup_append v8 "30" RP_METAR (md_set_reportTime md_default v2)) (fun p => let v9 := Some (fst p) in let v10 := snd p in 
    chk 1358 (Ok (AppendResult_beq v10 GROUP_INVALIDATED)) (
    step 1361 ((WindGroup_parse "WS" RP_METAR (md_set_reportTime md_default v2))) (fun v11 => 
    chk 1362 (Ok (has_value v11)) (
    step 1363 (let! v12 := deref v11 in WindGroup_append v12 "2345" RP_METAR (md_set_reportTime md_default v2)) (fun p => let v13 := Some (fst p) in let v14 := snd p in 
    chk 1363 (Ok (AppendResult_beq v14 GROUP_INVALIDATED)) (
    step 1366 ((WindGroup_parse "WS" RP_METAR (md_set_reportTime md_default v2))) (fun v15 => 
    chk 1367 (Ok (has_value v15)) (
    step 1368 (let! v16 := deref v15 in WindGroup_append v16 "18005KT" RP_METAR (md_set_reportTime md_default v2)) (fun p => let v17 := Some (fst p) in let v18 := snd p in 
    chk 1368 (Ok (AppendResult_beq v18 GROUP_INVALIDATED)) (
    step 1371 ((WindGroup_parse "WS" RP_METAR (md_set_reportTime md_default v2))) (fun v19 => 
    chk 1372 (Ok (has_value v19)) (
    step 1373 (let! v20 := deref v19 in WindGroup_append v20 "18005G10KT" RP_METAR (md_set_reportTime md_default v2)) (fun p => let v21 := Some (fst p) in let v22 := snd p in 
    chk 1373 (Ok (AppendResult_beq v22 GROUP_INVALIDATED)) (
    step 1376 ((WindGroup_parse "WS" RP_METAR (md_set_reportTime md_default v2))) (fun v23 => 
    chk 1377 (Ok (has_value v23)) (
    step 1378 (let! v24 := deref v23 in WindGroup_append v24 "320V340" RP_METAR (md_set_reportTime md_default v2)) (fun p => let v25 := Some (fst p) in let v26 := snd p in 
    chk 1378 (Ok (AppendResult_beq v26 GROUP_INVALIDATED)) (
    step 1381 ((WindGroup_parse "WS" RP_METAR (md_set_reportTime md_default v2))) (fun v27 => 
    chk 1382 (Ok (has_value v27)) (
    step 1383 (let! v28 := deref v27 in WindGroup_append v28 "PK" RP_METAR (md_set_reportTime md_default v2)) (fun p => let v29 := Some (fst p) in let v30 := snd p in 
    chk 1383 (Ok (AppendResult_beq v30 GROUP_INVALIDATED)) (
    step 1386 ((WindGroup_parse "WS" RP_METAR (md_set_reportTime md_default v2))) (fun v31 => 
    chk 1387 (Ok (has_value v31)) (
    step 1388 (let! v32 := deref v31 in WindGroup_append v32 "WSHFT" RP_METAR (md_set_reportTime md_default v2)) (fun p => let v33 := Some (fst p) in let v34 := snd p in 
    chk 1388 (Ok (AppendResult_beq v34 GROUP_INVALIDATED)) (
    step 1391 ((WindGroup_parse "WS" RP_METAR (md_set_reportTime md_default v2))) (fun v35 => 
    chk 1392 (Ok (has_value v35)) (
    step 1393 (let! v36 := deref v35 in WindGroup_append v36 "FROPA" RP_METAR (md_set_reportTime md_default v2)) (fun p => let v37 := Some (fst p) in let v38 := snd p in 
    chk 1393 (Ok (AppendResult_beq v38 GROUP_INVALIDATED)) (
    step 1396 ((WindGroup_parse "WS" RP_METAR (md_set_reportTime md_default v2))) (fun v39 => 
    chk 1397 (Ok (has_value v39)) (
    step 1398 (let! v40 := deref v39 in WindGroup_append v40 "TEST" RP_METAR (md_set_reportTime md_default v2)) (fun p => let v41 := Some (fst p) in let v42 := snd p in 
    chk 1398 (Ok (AppendResult_beq v42 GROUP_INVALIDATED)) (
    step 1401 ((WindGroup_parse "WS" RP_METAR (md_set_reportTime md_default v2))) (fun v43 => 
    chk 1402 (Ok (has_value v43)) (
    step 1403 (let! v44 := deref v43 in WindGroup_append v44 "LAST" RP_METAR (md_set_reportTime md_default v2)) (fun p => let v45 := Some (fst p) in let v46 := snd p in 
    chk 1403 (Ok (AppendResult_beq v46 GROUP_INVALIDATED)) (
    step 1406 ((WindGroup_parse "WS" RP_METAR (md_set_reportTime md_default v2))) (fun v47 => 
    chk 1407 (Ok (has_value v47)) (
    step 1408 (let! v48 := deref v47 in WindGroup_append v48 "WS020/18025KT" RP_METAR (md_set_reportTime md_default v2)) (fun p => let v49 := Some (fst p) in let v50 := snd p in 
    chk 1408 (Ok (AppendResult_beq v50 GROUP_INVALIDATED)) (
    step 1411 ((WindGroup_parse "WS" RP_METAR (md_set_reportTime md_default v2))) (fun v51 => 
    chk 1412 (Ok (has_value v51)) (
    step 1413 (let! v52 := deref v51 in WindGroup_append v52 "/////KT" RP_METAR (md_set_reportTime md_default v2)) (fun p => let v53 := Some (fst p) in let v54 := snd p in 
    chk 1413 (Ok (AppendResult_beq v54 GROUP_INVALIDATED)) (
    step 1416 ((WindGroup_parse "WS" RP_METAR (md_set_reportTime md_default v2))) (fun v55 => 
    chk 1417 (Ok (has_value v55)) (
    step 1418 (let! v56 := deref v55 in WindGroup_append v56 "WSCONDS" RP_METAR (md_set_reportTime md_default v2)) (fun p => let v57 := Some (fst p) in let v58 := snd p in 
    chk 1418 (Ok (AppendResult_beq v58 GROUP_INVALIDATED)) (
    step 1421 ((WindGroup_parse "WS" RP_METAR (md_set_reportTime md_default v2))) (fun v59 => 
    chk 1422 (Ok (has_value v59)) (
    step 1423 (let! v60 := deref v59 in WindGroup_append v60 "WS" RP_METAR (md_set_reportTime md_default v2)) (fun p => let v61 := Some (fst p) in let v62 := snd p in 
    chk 1423 (Ok (AppendResult_beq v62 GROUP_INVALIDATED)) (
    step 1426 ((WindGroup_parse "WS" RP_METAR (md_set_reportTime md_default v2))) (fun v63 => 
    chk 1427 (Ok (has_value v63)) (
    step 1428 (let! v64 := deref v63 in WindGroup_append v64 "WND" RP_METAR (md_set_reportTime md_default v2)) (fun p => let v65 := Some (fst p) in let v66 := snd p in 
    chk 1428 (Ok (AppendResult_beq v66 GROUP_INVALIDATED)) (
    step 1431 ((WindGroup_parse "WS" RP_METAR (md_set_reportTime md_default v2))) (fun v67 => 
    chk 1432 (Ok (has_value v67)) (
    step 1433 (let! v68 := deref v67 in WindGroup_append v68 "RWY" RP_METAR (md_set_reportTime md_default v2)) (fun p => let v69 := Some (fst p) in let v70 := snd p in 
    chk 1433 (Ok (AppendResult_beq v70 GROUP_INVALIDATED)) (
    step 1436 ((WindGroup_parse "WS" RP_METAR (md_set_reportTime md_default v2))) (fun v71 => 
    chk 1437 (Ok (has_value v71)) (
    step 1438 (let! v72 := deref v71 in WindGroup_append v72 "MISG" RP_METAR (md_set_reportTime md_default v2)) (fun p => let v73 := Some (fst p) in let v74 := snd p in 
    chk 1438 (Ok (AppendResult_beq v74 GROUP_INVALIDATED)) (
    None))))))))))))))))))))))))))))))))))))))))))))))))))))))))))))))))))))))))))).

Definition t_WindGroup_appendWsAllAndOther : option N :=
    step 1443 ((MetafTime_fromStringDDHHMM "210530")) (fun v1 => 
    chk 1444 (Ok (has_value v1)) (
    step 1447 (deref v1) (fun v2 => 
    step 1449 ((WindGroup_parse "WS" RP_METAR (md_set_reportTime md_default v2))) (fun v3 => 
    step 1450 (let! v4 := deref v3 in WindGroup_append v4 "ALL" RP_METAR (md_set_reportTime md_default v2)) (fun p => let v5 := Some (fst p) in let v6 := snd p in 
    chk 1450 (Ok (AppendResult_beq v6 APPENDED)) (
    step 1452 (let! v7 := deref v5 in WindGroup_append v7 "WSHFT" RP_METAR (md_set_reportTime md_default v2)) (fun p => let v8 := Some (fst p) in let v9 := snd p in 
    chk 1452 (Ok (AppendResult_beq v9 GROUP_INVALIDATED)) (
    step 1455 ((WindGroup_parse "WS" RP_METAR (md_set_reportTime md_default v2))) (fun v10 => 
    chk 1456 (Ok (has_value v10)) (
    step 1457 (let! v11 := deref v10 in WindGroup_append v11 "ALL" RP_METAR (md_set_reportTime md_default v2)) (fun p => let v12 := Some (fst p) in let v13 := snd p in 
    chk 1457 (Ok (AppendResult_beq v13 APPENDED)) (
    step 1459 (let! v14 := deref v12 in WindGroup_append v14 "30" RP_METAR (md_set_reportTime md_default v2)) (fun p => let v15 := Some (fst p) in let v16 := snd p in 
    chk 1459 (Ok (AppendResult_beq v16 GROUP_INVALIDATED)) (
    step 1462 ((WindGroup_parse "WS" RP_METAR (md_set_reportTime md_default v2))) (fun v17 => 
    chk 1463 (Ok (has_value v17)) (
    step 1464 (let! v18 := deref v17 in WindGroup_append v18 "ALL" RP_METAR (md_set_reportTime md_default v2)) (fun p => let v19 := Some (fst p) in let v20 := snd p in 
    chk 1464 (Ok (AppendResult_beq v20 APPENDED)) (
    step 1466 (let! v21 := deref v19 in WindGroup_append v21 "2345" RP_METAR (md_set_reportTime md_default v2)) (fun p => let v22 := Some (fst p) in let v23 := snd p in 
    chk 1466 (Ok (AppendResult_beq v23 GROUP_INVALIDATED)) (
    step 1469 ((WindGroup_parse "WS" RP_METAR (md_set_reportTime md_default v2))) (fun v24 => 
    chk 1470 (Ok (has_value v24)) (
    step 1471 (let! v25 := deref v24 in WindGroup_append v25 "ALL" RP_METAR (md_set_reportTime md_default v2)) (fun p => let v26 := Some (fst p) in let v27 := snd p in 
    chk 1471 (Ok (AppendResult_beq v27 APPENDED)) (
    step 1473 (let! v28 := deref v26 in WindGroup_append v28 "18005KT" RP_METAR (md_set_reportTime md_default v2)) (fun p => let v29 := Some (fst p) in let v30 := snd p in 
    chk 1473 (Ok (AppendResult_beq v30 GROUP_INVALIDATED)) (
    step 1476 ((WindGroup_parse "WS" RP_METAR (md_set_reportTime md_default v2))) (fun v31 => 
    chk 1477 (Ok (has_value v31)) (
    step 1478 (let! v32 := deref v31 in WindGroup_append v32 "ALL" RP_METAR (md_set_reportTime md_default v2)) (fun p => let v33 := Some (fst p) in let v34 := snd p in 
    chk 1478 (Ok (AppendResult_beq v34 APPENDED)) (
    step 1480 (let! v35 := deref v33 in WindGroup_append v35 "18005G10KT" RP_METAR (md_set_reportTime md_default v2)) (fun p => let v36 := Some (fst p) in let v37 := snd p in 
    chk 1480 (Ok (AppendResult_beq v37 GROUP_INVALIDATED)) (
    step 1483 ((WindGroup_parse "WS" RP_METAR (md_set_reportTime md_default v2))) (fun v38 => 
    chk 1484 (Ok (has_value v38)) (
    step 1485 (let! v39 := deref v38 in WindGroup_append v39 "ALL" RP_METAR (md_set_reportTime md_default v2)) (fun p => let v40 := Some (fst p) in let v41 := snd p in 
    chk 1485 (Ok (AppendResult_beq v41 APPENDED)) (
    step 1487 (let! v42 := deref v40 in WindGroup_append v42 "320V340" RP_METAR (md_set_reportTime md_default v2)) (fun p => let v43 := Some (fst p) in let v44 := snd p in 
    chk 1487 (Ok (AppendResult_beq v44 GROUP_INVALIDATED)) (
    step 1490 ((WindGroup_parse "WS" RP_METAR (md_set_reportTime md_default v2))) (fun v45 => 
    chk 1491 (Ok (has_value v45)) (
    step 1492 (let! v46 := deref v45 in WindGroup_append v46 "ALL" RP_METAR (md_set_reportTime md_default v2)) (fun p => let v47 := Some (fst p) in let v48 := snd p in 
    chk 1492 (Ok (AppendResult_beq v48 APPENDED)) (
    step 1494 (let! v49 := deref v47 in WindGroup_append v49 "PK" RP_METAR (md_set_reportTime md_default v2)) (fun p => let v50 := Some (fst p) in let v51 := snd p in 
    chk 1494 (Ok (AppendResult_beq v51 GROUP_INVALIDATED)) (
    step 1497 ((WindGroup_parse "WS" RP_METAR (md_set_reportTime md_default v2))) (fun v52 => 
    chk 1498 (Ok (has_value v52)) (
    step 1499 (let! v53 := deref v52 in WindGroup_append v53 "ALL" RP_METAR (md_set_reportTime md_default v2)) (fun p => let v54 := Some (fst p) in let v55 := snd p in 
    chk 1499 (Ok (AppendResult_beq v55 APPENDED)) (
    step 1501 (let! v56 := deref v54 in WindGroup_append v56 "WSHFT" RP_METAR (md_set_reportTime md_default v2)) (fun p => let v57 := Some (fst p) in let v58 := snd p in 
    chk 1501 (Ok (AppendResult_beq v58 GROUP_INVALIDATED)) (
    step 1504 ((WindGroup_parse "WS" RP_METAR (md_set_reportTime md_default v2))) (fun v59 => 
    chk 1505 (Ok (has_value v59)) (
    step 1506 (let! v60 := deref v59 in WindGroup_append v60 "ALL" RP_METAR (md_set_reportTime md_default v2)) (fun p => let v61 := Some (fst p) in let v62 := snd p in 
    chk 1506 (Ok (AppendResult_beq v62 APPENDED)) (
    step 1508 (let! v63 := deref v61 in WindGroup_append v63 "FROPA" RP_METAR (md_set_reportTime md_default v2)) (fun p => let v64 := Some (fst p) in let v65 := snd p in 
    chk 1508 (Ok (AppendResult_beq v65 GROUP_INVALIDATED)) (
    step 1511 ((WindGroup_parse "WS" RP_METAR (md_set_reportTime md_default v2))) (fun v66 => 
    chk 1512 (Ok (has_value v66)) (
    step 1513 (let! v67 := deref v66 in WindGroup_append v67 "ALL" RP_METAR (md_set_reportTime md_default v2)) (fun p => let v68 := Some (fst p) in let v69 := snd p in 
    chk 1513 (Ok (AppendResult_beq v69 APPENDED)) (
    step 1515 (let! v70 := deref v68 in WindGroup_append v70 "TEST" RP_METAR (md_set_reportTime md_default v2)) (fun p => let v71 := Some (fst p) in let v72 := snd p in 
    chk 1515 (Ok (AppendResult_beq v72 GROUP_INVALIDATED)) (
    step 1518 ((WindGroup_parse "WS" RP_METAR (md_set_reportTime md_default v2))) (fun v73 => 
    chk 1519 (Ok (has_value v73)) (
    step 1520 (let! v74 := deref v73 in WindGroup_append v74 "ALL" RP_METAR (md_set_reportTime md_default v2)) (fun p => let v75 := Some (fst p) in let v76 := snd p in 
    chk 1520 (Ok (AppendResult_beq v76 APPENDED)) (
    step 1522 (let! v77 := deref v75 in WindGroup_append v77 "LAST" RP_METAR (md_set_reportTime md_default v2)) (fun p => let v78 := Some (fst p) in let v79 := snd p in 
    chk 1522 (Ok (AppendResult_beq v79 GROUP_INVALIDATED)) (
    step 1525 ((WindGroup_parse "WS" RP_METAR (md_set_reportTime md_default v2))) (fun v80 => 
    chk 1526 (Ok (has_value v80)) (
    step 1527 (let! v81 := deref v80 in WindGroup_append v81 "ALL" RP_METAR (md_set_reportTime md_default v2)) (fun p => let v82 := Some (fst p) in let v83 := snd p in 
    chk 1527 (Ok (AppendResult_beq v83 APPENDED)) (
    step 1529 (let! v84 := deref v82 in WindGroup_append v84 "WS020/18025KT" RP_METAR (md_set_reportTime md_default v2)) (fun p => let v85 := Some (fst p) in let v86 := snd p in 
    chk 1529 (Ok (AppendResult_beq v86 GROUP_INVALIDATED)) (
    step 1532 ((WindGroup_parse "WS" RP_METAR (md_set_reportTime md_default v2))) (fun v87 => 
    chk 1533 (Ok (has_value v87)) (
    step 1534 (let! v88 := deref v87 in WindGroup_append v88 "ALL" RP_METAR (md_set_reportTime md_default v2)) (fun p => let v89 := Some (fst p) in let v90 := snd p in 
    chk 1534 (Ok (AppendResult_beq v90 APPENDED)) (
    step 1536 (let! v91 := deref v89 in WindGroup_append v91 "/////KT" RP_METAR (md_set_reportTime md_default v2)) (fun p => let v92 := Some (fst p) in let v93 := snd p in 
    chk 1536 (Ok (AppendResult_beq v93 GROUP_INVALIDATED)) (
    step 1539 ((WindGroup_parse "WS" RP_METAR (md_set_reportTime md_default v2))) (fun v94 => 
    chk 1540 (Ok (has_value v94)) (
    step 1541 (let! v95 := deref v94 in WindGroup_append v95 "ALL" RP_METAR (md_set_reportTime md_default v2)) (fun p => let v96 := Some (fst p) in let v97 := snd p in 
    chk 1541 (Ok (AppendResult_beq v97 APPENDED)) (
    step 1543 (let! v98 := deref v96 in WindGroup_append v98 "WSCONDS" RP_METAR (md_set_reportTime md_default v2)) (fun p => let v99 := Some (fst p) in let v100 := snd p in 
    chk 1543 (Ok (AppendResult_beq v100 GROUP_INVALIDATED)) (
    step 1546 ((WindGroup_parse "WS" RP_METAR (md_set_reportTime md_default v2))) (fun v101 => 
    chk 1547 (Ok (has_value v101)) (
    step 1548 (let! v102 := deref v101 in WindGroup_append v102 "ALL" RP_METAR (md_set_reportTime md_default v2)) (fun p => let v103 := Some (fst p) in let v104 := snd p in 
    chk 1548 (Ok (AppendResult_beq v104 APPENDED)) (
    step 1550 (let! v105 := deref v103 in WindGroup_append v105 "WS" RP_METAR (md_set_reportTime md_default v2)) (fun p => let v106 := Some (fst p) in let v107 := snd p in 
    chk 1550 (Ok (AppendResult_beq v107 GROUP_INVALIDATED)) (
    step 1553 ((WindGroup_parse "WS" RP_METAR (md_set_reportTime md_default v2))) (fun v108 => 
    chk 1554 (Ok (has_value v108)) (
    step 1555 (let! v109 := deref v108 in WindGroup_append v109 "ALL" RP_METAR (md_set_reportTime md_default v2)) (fun p => let v110 := Some (fst p) in let v111 := snd p in 
    chk 1555 (Ok (AppendResult_beq v111 APPENDED)) (
    step 1557 (let! v112 := deref v110 in WindGroup_append v112 "WND" RP_METAR (md_set_reportTime md_default v2)) (fun p => let v113 := Some (fst p) in let v114 := snd p in 
    chk 1557 (Ok (AppendResult_beq v114 GROUP_INVALIDATED)) (
    step 1560 ((WindGroup_parse "WS" RP_METAR (md_set_reportTime md_default v2))) (fun v115 => 
    chk 1561 (Ok (has_value v115)) (
    step 1562 (let! v116 := deref v115 in WindGroup_append v116 "ALL" RP_METAR (md_set_reportTime md_default v2)) (fun p => let v117 := Some (fst p) in let v118 := snd p in 
    chk 1562 (Ok (AppendResult_beq v118 APPENDED)) (
    step 1564 (let! v119 := deref v117 in WindGroup_append v119 "ALL" RP_METAR (md_set_reportTime md_default v2)) (fun p => let v120 := Some (fst p) in let v121 := snd p in 
    chk 1564 (Ok (AppendResult_beq v121 GROUP_INVALIDATED)) (
    step 1567 ((WindGroup_parse "WS" RP_METAR (md_set_reportTime md_default v2))) (fun v122 => 
    chk 1568 (Ok (has_value v122)) (
    step 1569 (let! v123 := deref v122 in WindGroup_append v123 "ALL" RP_METAR (md_set_reportTime md_default v2)) (fun p => let v124 := Some (fst p) in let v125 := snd p in 
    chk 1569 (Ok (AppendResult_beq v125 APPENDED)) (
    step 1571 (let! v126 := deref v124 in WindGroup_append v126 "R32" RP_METAR (md_set_reportTime md_default v2)) (fun p => let v127 := Some (fst p) in let v128 := snd p in 
    chk 1571 (Ok (AppendResult_beq v128 GROUP_INVALIDATED)) (
    step 1574 ((WindGroup_parse "WS" RP_METAR (md_set_reportTime md_default v2))) (fun v129 => 
    chk 1575 (Ok (has_value v129)) (
    step 1576 (let! v130 := deref v129 in WindGroup_append v130 "ALL" RP_METAR (md_set_reportTime md_default v2)) (fun p => let v131 := Some (fst p) in let v132 := snd p in 
    chk 1576 (Ok (AppendResult_beq v132 APPENDED)) (
    step 1578 (let! v133 := deref v131 in WindGroup_append v133 "RWY32" RP_METAR (md_set_reportTime md_default v2)) (fun p => let v134 := Some (fst p) in let v135 := snd p in 
    chk 1578 (Ok (AppendResult_beq v135 GROUP_INVALIDATED)) (
    None)))))))))))))))))))))))))))))))))))))))))))))))))))))))))))))))))))))))))))))))))))))))))))))))))))))))))))))))))))).

Definition t_WindGroup_windShearAppendOtherToWsAll : option N :=
    step 1583 ((MetafTime_fromStringDDHHMM "210530")) (fun v1 => 
    chk 1584 (Ok (has_value v1)) (
    step 1587 (deref v1) (fun v2 => 
    step 1589 ((WindGroup_parse "WS" RP_METAR md_default)) (fun v3 => 
    chk 1590 (Ok (has_value v3)) (
    step 1592 (let! v4 := deref v3 in WindGroup_append v4 "ALL" RP_METAR md_default) (fun p => let v5 := Some (fst p) in let v6 := snd p in 
    chk 1592 (Ok (AppendResult_beq v6 APPENDED)) (
    step 1594 (let! v7 := deref v5 in WindGroup_append v7 "RWY" RP_METAR md_default) (fun p => let v8 := Some (fst p) in let v9 := snd p in 
    chk 1594 (Ok (AppendResult_beq v9 APPENDED)) (
    step 1597 (let! v10 := deref v8 in WindGroup_append v10 "WSHFT" RP_RMK (md_set_reportTime md_default v2)) (fun p => let v11 := Some (fst p) in let v12 := snd p in 
    chk 1597 (Ok (AppendResult_beq v12 NOT_APPENDED)) (
    step 1599 (let! v13 := deref v11 in WindGroup_append v13 "030" RP_RMK (md_set_reportTime md_default v2)) (fun p => let v14 := Some (fst p) in let v15 := snd p in 
    chk 1599 (Ok (AppendResult_beq v15 NOT_APPENDED)) (
    step 1601 (let! v16 := deref v14 in WindGroup_append v16 "3" RP_RMK (md_set_reportTime md_default v2)) (fun p => let v17 := Some (fst p) in let v18 := snd p in 
    chk 1601 (Ok (AppendResult_beq v18 NOT_APPENDED)) (
    step 1603 (let! v19 := deref v17 in WindGroup_append v19 "01035" RP_RMK (md_set_reportTime md_default v2)) (fun p => let v20 := Some (fst p) in let v21 := snd p in 
    chk 1603 (Ok (AppendResult_beq v21 NOT_APPENDED)) (
    step 1605 (let! v22 := deref v20 in WindGroup_append v22 "135" RP_RMK (md_set_reportTime md_default v2)) (fun p => let v23 := Some (fst p) in let v24 := snd p in 
    chk 1605 (Ok (AppendResult_beq v24 NOT_APPENDED)) (
    step 1607 (let! v25 := deref v23 in WindGroup_append v25 "18005KT" RP_RMK (md_set_reportTime md_default v2)) (fun p => let v26 := Some (fst p) in let v27 := snd p in 
    chk 1607 (Ok (AppendResult_beq v27 NOT_APPENDED)) (
    step 1609 (let! v28 := deref v26 in WindGroup_append v28 "18005G10KT" RP_RMK (md_set_reportTime md_default v2)) (fun p => let v29 := Some (fst p) in let v30 := snd p in 
    chk 1609 (Ok (AppendResult_beq v30 NOT_APPENDED)) (
    step 1611 (let! v31 := deref v29 in WindGroup_append v31 "320V340" RP_RMK (md_set_reportTime md_default v2)) (fun p => let v32 := Some (fst p) in let v33 := snd p in 
    chk 1611 (Ok (AppendResult_beq v33 NOT_APPENDED)) (
    step 1613 (let! v34 := deref v32 in WindGroup_append v34 "PK" RP_RMK (md_set_reportTime md_default v2)) (fun p => let v35 := Some (fst p) in let v36 := snd p in 
    chk 1613 (Ok (AppendResult_beq v36 NOT_APPENDED)) (
    step 1615 (let! v37 := deref v35 in WindGroup_append v37 "WND" RP_RMK (md_set_reportTime md_default v2)) (fun p => let v38 := Some (fst p) in let v39 := snd p in 
    chk 1615 (Ok (AppendResult_beq v39 NOT_APPENDED)) (
    step 1617 (let! v40 := deref v38 in WindGroup_append v40 "31027/2119" RP_RMK (md_set_reportTime md_default v2)) (fun p => let v41 := Some (fst p) in let v42 := snd p in 
    chk 1617 (Ok (AppendResult_beq v42 NOT_APPENDED)) (
    step 1619 (let! v43 := deref v41 in WindGroup_append v43 "31027/19" RP_RMK (md_set_reportTime md_default v2)) (fun p => let v44 := Some (fst p) in let v45 := snd p in 
    chk 1619 (Ok (AppendResult_beq v45 NOT_APPENDED)) (
    step 1621 (let! v46 := deref v44 in WindGroup_append v46 "WS020/18025KT" RP_RMK (md_set_reportTime md_default v2)) (fun p => let v47 := Some (fst p) in let v48 := snd p in 
    chk 1621 (Ok (AppendResult_beq v48 NOT_APPENDED)) (
    step 1623 (let! v49 := deref v47 in WindGroup_append v49 "/////KT" RP_RMK (md_set_reportTime md_default v2)) (fun p => let v50 := Some (fst p) in let v51 := snd p in 
    chk 1623 (Ok (AppendResult_beq v51 NOT_APPENDED)) (
    step 1625 (let! v52 := deref v50 in WindGroup_append v52 "WSCONDS" RP_METAR md_default) (fun p => let v53 := Some (fst p) in let v54 := snd p in 
    chk 1625 (Ok (AppendResult_beq v54 NOT_APPENDED)) (
    step 1627 (let! v55 := deref v53 in WindGroup_append v55 "WS" RP_METAR md_default) (fun p => let v56 := Some (fst p) in let v57 := snd p in 
    chk 1627 (Ok (AppendResult_beq v57 NOT_APPENDED)) (
    step 1629 (let! v58 := deref v56 in WindGroup_append v58 "ALL" RP_METAR md_default) (fun p => let v59 := Some (fst p) in let v60 := snd p in 
    chk 1629 (Ok (AppendResult_beq v60 NOT_APPENDED)) (
    step 1631 (let! v61 := deref v59 in WindGroup_append v61 "RWY" RP_METAR md_default) (fun p => let v62 := Some (fst p) in let v63 := snd p in 
    chk 1631 (Ok (AppendResult_beq v63 NOT_APPENDED)) (
    step 1633 (let! v64 := deref v62 in WindGroup_append v64 "R32" RP_METAR md_default) (fun p => let v65 := Some (fst p) in let v66 := snd p in 
    chk 1633 (Ok (AppendResult_beq v66 NOT_APPENDED)) (
    step 1635 (let! v67 := deref v65 in WindGroup_append v67 "X32" RP_METAR md_default) (fun p => let v68 := Some (fst p) in let v69 := snd p in 
    chk 1635 (Ok (AppendResult_beq v69 NOT_APPENDED)) (
    chk 1638 (let! v70 := deref v68 in Ok (WiType_beq (wi_type v70) Wi_WIND_SHEAR_IN_LOWER_LAYERS)) (
    chk 1639 (let! v71 := deref v68 in Ok (DirType_beq (dirType (wi_dir v71)) DT_NOT_REPORTED)) (
    chk 1640 (let! v72 := deref v68 in Ok (negb (Speed_isReported (wi_speed v72)))) (
    chk 1641 (let! v73 := deref v68 in Ok (negb (Speed_isReported (wi_gust v73)))) (
    chk 1642 (let! v74 := deref v68 in Ok (negb (Distance_isReported (wi_height v74)))) (
    chk 1643 (let! v75 := deref v68 in Ok (DirType_beq (dirType (wi_vsecBegin v75)) DT_NOT_REPORTED)) (
    chk 1644 (let! v76 := deref v68 in Ok (DirType_beq (dirType (wi_vsecEnd v76)) DT_NOT_REPORTED)) (
    chk 1645 (let! v77 := deref v68 in Ok (negb (has_value (wi_evTime v77)))) (
    chk 1646 (let! v78 := deref v68 in Ok (has_value (wi_rw v78))) (
    chk 1647 (let! v79 := deref v68 in let! v80 := deref (wi_rw v79) in Ok (Runway_isAllRunways v80)) (
    None))))))))))))))))))))))))))))))))))))))))))))))))))))))))))).

Definition t_WindGroup_parseWsR32 : option N :=
    step 1657 ((WindGroup_parse "WS" RP_METAR md_default)) (fun v1 => 
    chk 1658 (Ok (has_value v1)) (
    step 1660 (let! v2 := deref v1 in WindGroup_append v2 "R32" RP_METAR md_default) (fun p => let v3 := Some (fst p) in let v4 := snd p in 
    chk 1660 (Ok (AppendResult_beq v4 APPENDED)) (
    chk 1662 (let! v5 := deref v3 in Ok (WiType_beq (wi_type v5) Wi_WIND_SHEAR_IN_LOWER_LAYERS)) (
    chk 1663 (let! v6 := deref v3 in Ok (DirType_beq (dirType (wi_dir v6)) DT_NOT_REPORTED)) (
    chk 1664 (let! v7 := deref v3 in Ok (negb (Speed_isReported (wi_speed v7)))) (
    chk 1665 (let! v8 := deref v3 in Ok (negb (Speed_isReported (wi_gust v8)))) (
    chk 1666 (let! v9 := deref v3 in Ok (negb (Distance_isReported (wi_height v9)))) (
    chk 1667 (let! v10 := deref v3 in Ok (DirType_beq (dirType (wi_vsecBegin v10)) DT_NOT_REPORTED)) (
    chk 1668 (let! v11 := deref v3 in Ok (DirType_beq (dirType (wi_vsecEnd v11)) DT_NOT_REPORTED)) (
    chk 1669 (let! v12 := deref v3 in Ok (negb (has_value (wi_evTime v12)))) (
    chk 1671 (let! v13 := deref v3 in Ok (has_value (wi_rw v13))) (
    chk 1672 (let! v14 := deref v3 in let! v15 := deref (wi_rw v14) in Ok (N.eqb (rNumber v15) 32%N)) (
    chk 1673 (let! v16 := deref v3 in let! v17 := deref (wi_rw v16) in Ok (RwDesignator_beq (rDesignator v17) Rw_NONE)) (
    None))))))))))))))).

Definition t_WindGroup_parseWsR27C : option N :=
    step 1677 ((WindGroup_parse "WS" RP_METAR md_default)) (fun v1 => 
    chk 1678 (Ok (has_value v1)) (
    step 1680 (let! v2 := deref v1 in WindGroup_append v2 "R27C" RP_METAR md_default) (fun p => let v3 := Some (fst p) in let v4 := snd p in 
    chk 1680 (Ok (AppendResult_beq v4 APPENDED)) (
    chk 1682 (let! v5 := deref v3 in Ok (has_value (wi_rw v5))) (
    chk 1683 (let! v6 := deref v3 in let! v7 := deref (wi_rw v6) in Ok (N.eqb (rNumber v7) 27%N)) (
    chk 1684 (let! v8 := deref v3 in let! v9 := deref (wi_rw v8) in Ok (RwDesignator_beq (rDesignator v9) Rw_CENTER)) (
    chk 1686 (let! v10 := deref v3 in Ok (WiType_beq (wi_type v10) Wi_WIND_SHEAR_IN_LOWER_LAYERS)) (
    chk 1687 (let! v11 := deref v3 in Ok (DirType_beq (dirType (wi_dir v11)) DT_NOT_REPORTED)) (
    chk 1688 (let! v12 := deref v3 in Ok (negb (Speed_isReported (wi_speed v12)))) (
    chk 1689 (let! v13 := deref v3 in Ok (negb (Speed_isReported (wi_gust v13)))) (
    chk 1690 (let! v14 := deref v3 in Ok (negb (Distance_isReported (wi_height v14)))) (
    chk 1691 (let! v15 := deref v3 in Ok (DirType_beq (dirType (wi_vsecBegin v15)) DT_NOT_REPORTED)) (
    chk 1692 (let! v16 := deref v3 in Ok (DirType_beq (dirType (wi_vsecEnd v16)) DT_NOT_REPORTED)) (
    chk 1693 (let! v17 := deref v3 in Ok (negb (has_value (wi_evTime v17)))) (
    chk 1694 (let! v18 := deref v3 in Ok (has_value (wi_rw v18))) (
    chk 1695 (let! v19 := deref v3 in let! v20 := deref (wi_rw v19) in Ok (N.eqb (rNumber v20) 27%N)) (
    chk 1696 (let! v21 := deref v3 in let! v22 := deref (wi_rw v21) in Ok (RwDesignator_beq (rDesignator v22) Rw_CENTER)) (
    None)))))))))))))))))).

Definition t_WindGroup_parseWsRwy32 : option N :=
    step 1700 ((WindGroup_parse "WS" RP_METAR md_default)) (fun v1 => 
    chk 1701 (Ok (has_value v1)) (
    step 1703 (let! v2 := deref v1 in WindGroup_append v2 "RWY32" RP_METAR md_default) (fun p => let v3 := Some (fst p) in let v4 := snd p in 
    chk 1703 (Ok (AppendResult_beq v4 APPENDED)) (
    chk 1705 (let! v5 := deref v3 in Ok (has_value (wi_rw v5))) (
    chk 1706 (let! v6 := deref v3 in let! v7 := deref (wi_rw v6) in Ok (N.eqb (rNumber v7) 32%N)) (
    chk 1707 (let! v8 := deref v3 in let! v9 := deref (wi_rw v8) in Ok (RwDesignator_beq (rDesignator v9) Rw_NONE)) (
    chk 1709 (let! v10 := deref v3 in Ok (WiType_beq (wi_type v10) Wi_WIND_SHEAR_IN_LOWER_LAYERS)) (
    chk 1710 (let! v11 := deref v3 in Ok (DirType_beq (dirType (wi_dir v11)) DT_NOT_REPORTED)) (
    chk 1711 (let! v12 := deref v3 in Ok (negb (Speed_isReported (wi_speed v12)))) (
    chk 1712 (let! v13 := deref v3 in Ok (negb (Speed_isReported (wi_gust v13)))) (
    chk 1713 (let! v14 := deref v3 in Ok (negb (Distance_isReported (wi_height v14)))) (
    chk 1714 (let! v15 := deref v3 in Ok (DirType_beq (dirType (wi_vsecBegin v15)) DT_NOT_REPORTED)) (
    chk 1715 (let! v16 := deref v3 in Ok (DirType_beq (dirType (wi_vsecEnd v16)) DT_NOT_REPORTED)) (
    chk 1716 (let! v17 := deref v3 in Ok (negb (has_value (wi_evTime v17)))) (
    chk 1717 (let! v18 := deref v3 in Ok (has_value (wi_rw v18))) (
    chk 1718 (let! v19 := deref v3 in let! v20 := deref (wi_rw v19) in Ok (N.eqb (rNumber v20) 32%N)) (
    chk 1719 (let! v21 := deref v3 in let! v22 := deref (wi_rw v21) in Ok (RwDesignator_beq (rDesignator v22) Rw_NONE)) (
    None)))))))))))))))))).

Definition t_WindGroup_parseWsRwy27C : option N :=
    step 1723 ((WindGroup_parse "WS" RP_METAR md_default)) (fun v1 => 
    chk 1724 (Ok (has_value v1)) (
    step 1726 (let! v2 := deref v1 in WindGroup_append v2 "RWY27C" RP_METAR md_default) (fun p => let v3 := Some (fst p) in let v4 := snd p in 
    chk 1726 (Ok (AppendResult_beq v4 APPENDED)) (
    chk 1729 (let! v5 := deref v3 in Ok (has_value (wi_rw v5))) (
    chk 1730 (let! v6 := deref v3 in let! v7 := deref (wi_rw v6) in Ok (N.eqb (rNumber v7) 27%N)) (
    chk 1731 (let! v8 := deref v3 in let! v9 := deref (wi_rw v8) in Ok (RwDesignator_beq (rDesignator v9) Rw_CENTER)) (
    chk 1733 (let! v10 := deref v3 in Ok (WiType_beq (wi_type v10) Wi_WIND_SHEAR_IN_LOWER_LAYERS)) (
    chk 1734 (let! v11 := deref v3 in Ok (DirType_beq (dirType (wi_dir v11)) DT_NOT_REPORTED)) (
    chk 1735 (let! v12 := deref v3 in Ok (negb (Speed_isReported (wi_speed v12)))) (
    chk 1736 (let! v13 := deref v3 in Ok (negb (Speed_isReported (wi_gust v13)))) (
    chk 1737 (let! v14 := deref v3 in Ok (negb (Distance_isReported (wi_height v14)))) (
    chk 1738 (let! v15 := deref v3 in Ok (DirType_beq (dirType (wi_vsecBegin v15)) DT_NOT_REPORTED)) (
    chk 1739 (let! v16 := deref v3 in Ok (DirType_beq (dirType (wi_vsecEnd v16)) DT_NOT_REPORTED)) (
    chk 1740 (let! v17 := deref v3 in Ok (negb (has_value (wi_evTime v17)))) (
    chk 1741 (let! v18 := deref v3 in Ok (has_value (wi_rw v18))) (
    chk 1742 (let! v19 := deref v3 in let! v20 := deref (wi_rw v19) in Ok (N.eqb (rNumber v20) 27%N)) (
    chk 1743 (let! v21 := deref v3 in let! v22 := deref (wi_rw v21) in Ok (RwDesignator_beq (rDesignator v22) Rw_CENTER)) (
    None)))))))))))))))))).

Definition t_WindGroup_windShearAppendToWsRwy : option N :=
    step 1747 ((MetafTime_fromStringDDHHMM "210530")) (fun v1 => 
    chk 1748 (Ok (has_value v1)) (
    step 1751 (deref v1) (fun v2 => 
    step 1753 ((WindGroup_parse "WS" RP_METAR md_default)) (fun v3 => 
    chk 1754 (Ok (has_value v3)) (
    step 1756 (let! v4 := deref v3 in WindGroup_append v4 "R32" RP_METAR md_default) (fun p => let v5 := Some (fst p) in let v6 := snd p in 
    chk 1756 (Ok (AppendResult_beq v6 APPENDED)) (
    step 1759 (let! v7 := deref v5 in WindGroup_append v7 "WSHFT" RP_RMK (md_set_reportTime md_default v2)) (fun p => let v8 := Some (fst p) in let v9 := snd p in 
    chk 1759 (Ok (AppendResult_beq v9 NOT_APPENDED)) (
    step 1761 (let! v10 := deref v8 in WindGroup_append v10 "030" RP_RMK (md_set_reportTime md_default v2)) (fun p => let v11 := Some (fst p) in let v12 := snd p in 
    chk 1761 (Ok (AppendResult_beq v12 NOT_APPENDED)) (
    step 1763 (let! v13 := deref v11 in WindGroup_append v13 "3" RP_RMK (md_set_reportTime md_default v2)) (fun p => let v14 := Some (fst p) in let v15 := snd p in 
    chk 1763 (Ok (AppendResult_beq v15 NOT_APPENDED)) (
    step 1765 (let! v16 := deref v14 in WindGroup_append v16 "01035" RP_RMK (md_set_reportTime md_default v2)) (fun p => let v17 := Some (fst p) in let v18 := snd p in 
    chk 1765 (Ok (AppendResult_beq v18 NOT_APPENDED)) (
    step 1767 (let! v19 := deref v17 in WindGroup_append v19 "135" RP_RMK (md_set_reportTime md_default v2)) (fun p => let v20 := Some (fst p) in let v21 := snd p in 
    chk 1767 (Ok (AppendResult_beq v21 NOT_APPENDED)) (
    step 1769 (let! v22 := deref v20 in WindGroup_append v22 "18005KT" RP_RMK (md_set_reportTime md_default v2)) (fun p => let v23 := Some (fst p) in let v24 := snd p in 
    chk 1769 (Ok (AppendResult_beq v24 NOT_APPENDED)) (
    step 1771 (let! v25 := deref v23 in WindGroup_append v25 "18005G10KT" RP_RMK (md_set_reportTime md_default v2)) (fun p => let v26 := Some (fst p) in let v27 := snd p in 
    chk 1771 (Ok (AppendResult_beq v27 NOT_APPENDED)) (
    step 1773 (let! v28 := deref v26 in WindGroup_append v28 "320V340" RP_RMK (md_set_reportTime md_default v2)) (fun p => let v29 := Some (fst p) in let v30 := snd p in 
    chk 1773 (Ok (AppendResult_beq v30 NOT_APPENDED)) (
    step 1775 (let! v31 := deref v29 in WindGroup_append v31 "PK" RP_RMK (md_set_reportTime md_default v2)) (fun p => let v32 := Some (fst p) in let v33 := snd p in 
    chk 1775 (Ok (AppendResult_beq v33 NOT_APPENDED)) (
    step 1777 (let! v34 := deref v32 in WindGroup_append v34 "WND" RP_RMK (md_set_reportTime md_default v2)) (fun p => let v35 := Some (fst p) in let v36 := snd p in 
    chk 1777 (Ok (AppendResult_beq v36 NOT_APPENDED)) (
    step 1779 (let! v37 := deref v35 in WindGroup_append v37 "31027/2119" RP_RMK (md_set_reportTime md_default v2)) (fun p => let v38 := Some (fst p) in let v39 := snd p in 
    chk 1779 (Ok (AppendResult_beq v39 NOT_APPENDED)) (
    step 1781 (let! v40 := deref v38 in WindGroup_append v40 "31027/19" RP_RMK (md_set_reportTime md_default v2)) (fun p => let v41 := Some (fst p) in let v42 := snd p in 
    chk 1781 (Ok (AppendResult_beq v42 NOT_APPENDED)) (
    step 1783 (let! v43 := deref v41 in WindGroup_append v43 "WS020/18025KT" RP_RMK (md_set_reportTime md_default v2)) (fun p => let v44 := Some (fst p) in let v45 := snd p in 
    chk 1783 (Ok (AppendResult_beq v45 NOT_APPENDED)) (
    step 1785 (let! v46 := deref v44 in WindGroup_append v46 "/////KT" RP_RMK (md_set_reportTime md_default v2)) (fun p => let v47 := Some (fst p) in let v48 := snd p in 
    chk 1785 (Ok (AppendResult_beq v48 NOT_APPENDED)) (
    step 1787 (let! v49 := deref v47 in WindGroup_append v49 "WSCONDS" RP_METAR md_default) (fun p => let v50 := Some (fst p) in let v51 := snd p in 
    chk 1787 (Ok (AppendResult_beq v51 NOT_APPENDED)) (
    step 1789 (let! v52 := deref v50 in WindGroup_append v52 "WS" RP_METAR md_default) (fun p => let v53 := Some (fst p) in let v54 := snd p in 
    chk 1789 (Ok (AppendResult_beq v54 NOT_APPENDED)) (
    step 1791 (let! v55 := deref v53 in WindGroup_append v55 "ALL" RP_METAR md_default) (fun p => let v56 := Some (fst p) in let v57 := snd p in 
    chk 1791 (Ok (AppendResult_beq v57 NOT_APPENDED)) (
    step 1793 (let! v58 := deref v56 in WindGroup_append v58 "RWY" RP_METAR md_default) (fun p => let v59 := Some (fst p) in let v60 := snd p in 
    chk 1793 (Ok (AppendResult_beq v60 NOT_APPENDED)) (
    step 1795 (let! v61 := deref v59 in WindGroup_append v61 "R32" RP_METAR md_default) (fun p => let v62 := Some (fst p) in let v63 := snd p in 
    chk 1795 (Ok (AppendResult_beq v63 NOT_APPENDED)) (
    step 1797 (let! v64 := deref v62 in WindGroup_append v64 "X32" RP_METAR md_default) (fun p => let v65 := Some (fst p) in let v66 := snd p in 
    chk 1797 (Ok (AppendResult_beq v66 NOT_APPENDED)) (
    chk 1800 (let! v67 := deref v65 in Ok (has_value (wi_rw v67))) (
    chk 1801 (let! v68 := deref v65 in let! v69 := deref (wi_rw v68) in Ok (N.eqb (rNumber v69) 32%N)) (
    chk 1802 (let! v70 := deref v65 in let! v71 := deref (wi_rw v70) in Ok (RwDesignator_beq (rDesignator v71) Rw_NONE)) (
    chk 1804 (let! v72 := deref v65 in Ok (WiType_beq (wi_type v72) Wi_WIND_SHEAR_IN_LOWER_LAYERS)) (
    chk 1805 (let! v73 := deref v65 in Ok (DirType_beq (dirType (wi_dir v73)) DT_NOT_REPORTED)) (
    chk 1806 (let! v74 := deref v65 in Ok (negb (Speed_isReported (wi_speed v74)))) (
    chk 1807 (let! v75 := deref v65 in Ok (negb (Speed_isReported (wi_gust v75)))) (
    chk 1808 (let! v76 := deref v65 in Ok (negb (Distance_isReported (wi_height v76)))) (
    chk 1809 (let! v77 := deref v65 in Ok (DirType_beq (dirType (wi_vsecBegin v77)) DT_NOT_REPORTED)) (
    chk 1810 (let! v78 := deref v65 in Ok (DirType_beq (dirType (wi_vsecEnd v78)) DT_NOT_REPORTED)) (
    chk 1811 (let! v79 := deref v65 in Ok (negb (has_value (wi_evTime v79)))) (
    chk 1813 (let! v80 := deref v65 in Ok (has_value (wi_rw v80))) (
    chk 1814 (let! v81 := deref v65 in let! v82 := deref (wi_rw v81) in Ok (N.eqb (rNumber v82) 32%N)) (
    chk 1815 (let! v83 := deref v65 in let! v84 := deref (wi_rw v83) in Ok (RwDesignator_beq (rDesignator v84) Rw_NONE)) (
    None))))))))))))))))))))))))))))))))))))))))))))))))))))))))))))).

Definition t_WindGroup_parseWsWrongReportPart : option N :=
    chk 1819 (let! v1 := (WindGroup_parse "WS" RP_UNKNOWN md_default) in Ok (negb (has_value v1))) (
    chk 1820 (let! v2 := (WindGroup_parse "WS" RP_HEADER md_default) in Ok (negb (has_value v2))) (
    chk 1821 (let! v3 := (WindGroup_parse "WS" RP_TAF md_default) in Ok (negb (has_value v3))) (
    chk 1822 (let! v4 := (WindGroup_parse "WS" RP_RMK md_default) in Ok (negb (has_value v4))) (
    None)))).

Definition t_WindGroup_isValidTrueSurfaceWind : option N :=
    step 1831 ((WindGroup_parse "18005KT" RP_METAR md_default)) (fun v1 => 
    chk 1832 (Ok (has_value v1)) (
    chk 1833 (let! v2 := deref v1 in Ok (WindGroup_isValid v2)) (
    step 1835 ((WindGroup_parse "18005G10KT" RP_METAR md_default)) (fun v3 => 
    chk 1836 (Ok (has_value v3)) (
    chk 1837 (let! v4 := deref v3 in Ok (WindGroup_isValid v4)) (
    step 1839 ((WindGroup_parse "180105G110KT" RP_METAR md_default)) (fun v5 => 
    chk 1840 (Ok (has_value v5)) (
    chk 1841 (let! v6 := deref v5 in Ok (WindGroup_isValid v6)) (
    step 1843 ((WindGroup_parse "/////KT" RP_METAR md_default)) (fun v7 => 
    chk 1844 (Ok (has_value v7)) (
    chk 1845 (let! v8 := deref v7 in Ok (WindGroup_isValid v8)) (
    step 1847 ((WindGroup_parse "VRB05KT" RP_METAR md_default)) (fun v9 => 
    chk 1848 (Ok (has_value v9)) (
    chk 1849 (let! v10 := deref v9 in Ok (WindGroup_isValid v10)) (
    None))))))))))))))).

Definition t_WindGroup_isValidFalseSurfaceWind : option N :=
    step 1853 ((WindGroup_parse "37005KT" RP_METAR md_default)) (fun v1 => 
    chk 1854 (Ok (has_value v1)) (
    chk 1855 (let! v2 := deref v1 in Ok (negb (WindGroup_isValid v2))) (
    step 1857 ((WindGroup_parse "37015G05KT" RP_METAR md_default)) (fun v3 => 
    chk 1858 (Ok (has_value v3)) (
    chk 1859 (let! v4 := deref v3 in Ok (negb (WindGroup_isValid v4))) (
    step 1861 ((WindGroup_parse "18000G00KT" RP_METAR md_default)) (fun v5 => 
    chk 1862 (Ok (has_value v5)) (
    chk 1863 (let! v6 := deref v5 in Ok (negb (WindGroup_isValid v6))) (
    None))))))))).

Definition t_WindGroup_isValidTrueWindShear : option N :=
    step 1867 ((WindGroup_parse "WS020/18005KT" RP_METAR md_default)) (fun v1 => 
    chk 1868 (Ok (has_value v1)) (
    chk 1869 (let! v2 := deref v1 in Ok (WindGroup_isValid v2)) (
    None))).

Definition t_WindGroup_isValidFalseWindShear : option N :=
    step 1873 ((WindGroup_parse "WS000/18005KT" RP_METAR md_default)) (fun v1 => 
    chk 1874 (Ok (has_value v1)) (
    chk 1875 (let! v2 := deref v1 in Ok (negb (WindGroup_isValid v2))) (
    None))).

Definition t_WindGroup_isValidTrueVariableWindSector : option N :=
    step 1879 ((WindGroup_parse "18005KT" RP_METAR md_default)) (fun v1 => 
    chk 1880 (Ok (has_value v1)) (
    chk 1881 (let! v2 := deref v1 in Ok (WindGroup_isValid v2)) (
    None))).

Definition t_WindGroup_isValidFalseVariableWindSector : option N :=
    step 1885 ((WindGroup_parse "370V010" RP_METAR md_default)) (fun v1 => 
    chk 1886 (Ok (has_value v1)) (
    chk 1887 (let! v2 := deref v1 in Ok (negb (WindGroup_isValid v2))) (
    step 1889 ((WindGroup_parse "300V370" RP_METAR md_default)) (fun v3 => 
    chk 1890 (Ok (has_value v3)) (
    chk 1891 (let! v4 := deref v3 in Ok (negb (WindGroup_isValid v4))) (
    None)))))).

Definition t_WindGroup_isValidTruePeakWind : option N :=
    step 1895 ((WindGroup_parse "PK" RP_RMK md_default)) (fun v1 => 
    chk 1896 (Ok (has_value v1)) (
    step 1897 (let! v2 := deref v1 in WindGroup_append v2 "WND" RP_RMK md_default) (fun p => let v3 := Some (fst p) in let v4 := snd p in 
    chk 1897 (Ok (AppendResult_beq v4 APPENDED)) (
    step 1898 (let! v5 := deref v3 in WindGroup_append v5 "31076/1547" RP_RMK md_default) (fun p => let v6 := Some (fst p) in let v7 := snd p in 
    chk 1898 (Ok (AppendResult_beq v7 APPENDED)) (
    chk 1899 (let! v8 := deref v6 in Ok (WindGroup_isValid v8)) (
    None))))))).

Definition t_WindGroup_isValidFalsePeakWind : option N :=
    step 1903 ((WindGroup_parse "PK" RP_RMK md_default)) (fun v1 => 
    chk 1904 (Ok (has_value v1)) (
    step 1905 (let! v2 := deref v1 in WindGroup_append v2 "WND" RP_RMK md_default) (fun p => let v3 := Some (fst p) in let v4 := snd p in 
    chk 1905 (Ok (AppendResult_beq v4 APPENDED)) (
    step 1906 (let! v5 := deref v3 in WindGroup_append v5 "37076/1547" RP_RMK md_default) (fun p => let v6 := Some (fst p) in let v7 := snd p in 
    chk 1906 (Ok (AppendResult_beq v7 APPENDED)) (
    chk 1907 (let! v8 := deref v6 in Ok (negb (WindGroup_isValid v8))) (
    step 1909 ((WindGroup_parse "PK" RP_RMK md_default)) (fun v9 => 
    chk 1910 (Ok (has_value v9)) (
    step 1911 (let! v10 := deref v9 in WindGroup_append v10 "WND" RP_RMK md_default) (fun p => let v11 := Some (fst p) in let v12 := snd p in 
    chk 1911 (Ok (AppendResult_beq v12 APPENDED)) (
    step 1912 (let! v13 := deref v11 in WindGroup_append v13 "31076/2547" RP_RMK md_default) (fun p => let v14 := Some (fst p) in let v15 := snd p in 
    chk 1912 (Ok (AppendResult_beq v15 APPENDED)) (
    chk 1913 (let! v16 := deref v14 in Ok (negb (WindGroup_isValid v16))) (
    step 1915 ((WindGroup_parse "PK" RP_RMK md_default)) (fun v17 => 
    chk 1916 (Ok (has_value v17)) (
    step 1917 (let! v18 := deref v17 in WindGroup_append v18 "WND" RP_RMK md_default) (fun p => let v19 := Some (fst p) in let v20 := snd p in 
    chk 1917 (Ok (AppendResult_beq v20 APPENDED)) (
    step 1918 (let! v21 := deref v19 in WindGroup_append v21 "31076/1560" RP_RMK md_default) (fun p => let v22 := Some (fst p) in let v23 := snd p in 
    chk 1918 (Ok (AppendResult_beq v23 APPENDED)) (
    chk 1919 (let! v24 := deref v22 in Ok (negb (WindGroup_isValid v24))) (
    None))))))))))))))))))))).

Definition t_WindGroup_isValidTrueWindShift : option N :=
    step 1923 ((WindGroup_parse "WSHFT" RP_RMK md_default)) (fun v1 => 
    chk 1924 (Ok (has_value v1)) (
    chk 1925 (let! v2 := deref v1 in Ok (WindGroup_isValid v2)) (
    step 1927 ((WindGroup_parse "WSHFT" RP_RMK md_default)) (fun v3 => 
    chk 1928 (Ok (has_value v3)) (
    step 1929 (let! v4 := deref v3 in WindGroup_append v4 "0415" RP_RMK md_default) (fun p => let v5 := Some (fst p) in let v6 := snd p in 
    chk 1929 (Ok (AppendResult_beq v6 APPENDED)) (
    chk 1930 (let! v7 := deref v1 in Ok (WindGroup_isValid v7)) (
    step 1932 ((WindGroup_parse "WSHFT" RP_RMK md_default)) (fun v8 => 
    chk 1933 (Ok (has_value v8)) (
    step 1934 (let! v9 := deref v8 in WindGroup_append v9 "0415" RP_RMK md_default) (fun p => let v10 := Some (fst p) in let v11 := snd p in 
    chk 1934 (Ok (AppendResult_beq v11 APPENDED)) (
    step 1935 (let! v12 := deref v10 in WindGroup_append v12 "FROPA" RP_RMK md_default) (fun p => let v13 := Some (fst p) in let v14 := snd p in 
    chk 1935 (Ok (AppendResult_beq v14 APPENDED)) (
    chk 1936 (let! v15 := deref v1 in Ok (WindGroup_isValid v15)) (
    step 1938 ((WindGroup_parse "WSHFT" RP_RMK md_default)) (fun v16 => 
    chk 1939 (Ok (has_value v16)) (
    step 1940 (let! v17 := deref v16 in WindGroup_append v17 "FROPA" RP_RMK md_default) (fun p => let v18 := Some (fst p) in let v19 := snd p in 
    chk 1940 (Ok (AppendResult_beq v19 APPENDED)) (
    chk 1941 (let! v20 := deref v1 in Ok (WindGroup_isValid v20)) (
    None)))))))))))))))))))).

Definition t_WindGroup_isValidFalseWindShift : option N :=
    step 1945 ((WindGroup_parse "WSHFT" RP_RMK md_default)) (fun v1 => 
    chk 1946 (Ok (has_value v1)) (
    step 1947 (let! v2 := deref v1 in WindGroup_append v2 "2515" RP_RMK md_default) (fun p => let v3 := Some (fst p) in let v4 := snd p in 
    chk 1947 (Ok (AppendResult_beq v4 APPENDED)) (
    chk 1948 (let! v5 := deref v3 in Ok (negb (WindGroup_isValid v5))) (
    step 1950 ((WindGroup_parse "WSHFT" RP_RMK md_default)) (fun v6 => 
    chk 1951 (Ok (has_value v6)) (
    step 1952 (let! v7 := deref v6 in WindGroup_append v7 "0460" RP_RMK md_default) (fun p => let v8 := Some (fst p) in let v9 := snd p in 
    chk 1952 (Ok (AppendResult_beq v9 APPENDED)) (
    chk 1953 (let! v10 := deref v8 in Ok (negb (WindGroup_isValid v10))) (
    None)))))))))).

Definition t_WindGroup_isValidTrueWsconds : option N :=
    step 1957 ((WindGroup_parse "WSCONDS" RP_TAF md_default)) (fun v1 => 
    chk 1958 (Ok (has_value v1)) (
    chk 1959 (let! v2 := deref v1 in Ok (WindGroup_isValid v2)) (
    None))).

Definition t_WindGroup_isValidWindShearLowerLayersValidRunway : option N :=
    step 1963 ((WindGroup_parse "WS" RP_METAR md_default)) (fun v1 => 
    chk 1964 (Ok (has_value v1)) (
    step 1966 (let! v2 := deref v1 in WindGroup_append v2 "RWY32" RP_METAR md_default) (fun p => let v3 := Some (fst p) in let v4 := snd p in 
    chk 1966 (Ok (AppendResult_beq v4 APPENDED)) (
    chk 1968 (let! v5 := deref v3 in Ok (WindGroup_isValid v5)) (
    None))))).

Definition t_WindGroup_isValidWindShearLowerLayersWrongRunway : option N :=
    step 1972 ((WindGroup_parse "WS" RP_METAR md_default)) (fun v1 => 
    chk 1973 (Ok (has_value v1)) (
    step 1975 (let! v2 := deref v1 in WindGroup_append v2 "RWY37" RP_METAR md_default) (fun p => let v3 := Some (fst p) in let v4 := snd p in 
    chk 1975 (Ok (AppendResult_beq v4 APPENDED)) (
    chk 1977 (let! v5 := deref v3 in Ok (negb (WindGroup_isValid v5))) (
    None))))).

Definition t_WindGroup_isValidWindShearLowerLayersAllRunways : option N :=
    step 1981 ((WindGroup_parse "WS" RP_METAR md_default)) (fun v1 => 
    chk 1982 (Ok (has_value v1)) (
    step 1984 (let! v2 := deref v1 in WindGroup_append v2 "ALL" RP_METAR md_default) (fun p => let v3 := Some (fst p) in let v4 := snd p in 
    chk 1984 (Ok (AppendResult_beq v4 APPENDED)) (
    step 1985 (let! v5 := deref v3 in WindGroup_append v5 "RWY" RP_METAR md_default) (fun p => let v6 := Some (fst p) in let v7 := snd p in 
    chk 1985 (Ok (AppendResult_beq v7 APPENDED)) (
    chk 1986 (let! v8 := deref v6 in Ok (WindGroup_isValid v8)) (
    None))))))).

Example tests_windgroup_pass : failures
  [("WindGroup_parseSurfaceWindKnotsMetar", t_WindGroup_parseSurfaceWindKnotsMetar);
   ("WindGroup_parseSurfaceWindKnotsTaf", t_WindGroup_parseSurfaceWindKnotsTaf);
   ("WindGroup_parseSurfaceWindMps", t_WindGroup_parseSurfaceWindMps);
   ("WindGroup_parseSurfaceWindKmh", t_WindGroup_parseSurfaceWindKmh);
   ("WindGroup_parseGusts", t_WindGroup_parseGusts);
   ("WindGroup_parseSurfaceWindThreeDigits", t_WindGroup_parseSurfaceWindThreeDigits);
   ("WindGroup_parseSurfaceWindGustsThreeDigits", t_WindGroup_parseSurfaceWindGustsThreeDigits);
   ("WindGroup_parseSurfaceWindWindAndGustsThreeDigits", t_WindGroup_parseSurfaceWindWindAndGustsThreeDigits);
   ("WindGroup_parseSurfaceWindVariableDirection", t_WindGroup_parseSurfaceWindVariableDirection);
   ("WindGroup_parseSurfaceWindNotReported", t_WindGroup_parseSurfaceWindNotReported);
   ("WindGroup_parseSurfaceWindWrongReportPart", t_WindGroup_parseSurfaceWindWrongReportPart);
   ("WindGroup_parseSurfaceWindWrongFormat", t_WindGroup_parseSurfaceWindWrongFormat);
   ("WindGroup_parseVariableWindSectorMetar", t_WindGroup_parseVariableWindSectorMetar);
   ("WindGroup_parseVariableWindSectorTaf", t_WindGroup_parseVariableWindSectorTaf);
   ("WindGroup_parseVariableWindSectorWrongReportPart", t_WindGroup_parseVariableWindSectorWrongReportPart);
   ("WindGroup_parseVariableWindSectorWrongFormat", t_WindGroup_parseVariableWindSectorWrongFormat);
   ("WindGroup_appendSurfaceWindAndVariableWindSector", t_WindGroup_appendSurfaceWindAndVariableWindSector);
   ("WindGroup_appendSurfaceWindAndOther", t_WindGroup_appendSurfaceWindAndOther);
   ("WindGroup_appendVariableWindSectorAndOther", t_WindGroup_appendVariableWindSectorAndOther);
   ("WindGroup_parseWindShear", t_WindGroup_parseWindShear);
   ("WindGroup_parseWindShearWrongReportPart", t_WindGroup_parseWindShearWrongReportPart);
   ("WindGroup_parseWindShearWrongFormat", t_WindGroup_parseWindShearWrongFormat);
   ("WindGroup_appendWindShearGroupAndOther", t_WindGroup_appendWindShearGroupAndOther);
   ("WindGroup_calmWindKnots", t_WindGroup_calmWindKnots);
   ("WindGroup_calmWindMps", t_WindGroup_calmWindMps);
   ("WindGroup_calmWindKmh", t_WindGroup_calmWindKmh);
   ("WindGroup_parseWsconds", t_WindGroup_parseWsconds);
   ("WindGroup_parseWscondsWrongReportPart", t_WindGroup_parseWscondsWrongReportPart);
   ("WindGroup_appendWscondsAndOther", t_WindGroup_appendWscondsAndOther);
   ("WindGroup_parseWndMisg", t_WindGroup_parseWndMisg);
   ("WindGroup_appendOtherToWnd", t_WindGroup_appendOtherToWnd);
   ("WindGroup_parseWshft", t_WindGroup_parseWshft);
   ("WindGroup_parseWshftWrongReportPart", t_WindGroup_parseWshftWrongReportPart);
   ("WindGroup_parseWshftWrongFormat", t_WindGroup_parseWshftWrongFormat);
   ("WindGroup_appendWshftAndTimeMin", t_WindGroup_appendWshftAndTimeMin);
   ("WindGroup_appendWshftAndTimeMinNoReportTime", t_WindGroup_appendWshftAndTimeMinNoReportTime);
   ("WindGroup_appendWshftAndTimeHourMin", t_WindGroup_appendWshftAndTimeHourMin);
   ("WindGroup_appendWshftAndTimeAndFropa", t_WindGroup_appendWshftAndTimeAndFropa);
   ("WindGroup_appendWshftAndFropa", t_WindGroup_appendWshftAndFropa);
   ("WindGroup_appendWshftAndOther", t_WindGroup_appendWshftAndOther);
   ("WindGroup_parsePk", t_WindGroup_parsePk);
   ("WindGroup_parsePkWrongReportPart", t_WindGroup_parsePkWrongReportPart);
   ("WindGroup_appendPkAndWnd", t_WindGroup_appendPkAndWnd);
   ("WindGroup_appendPkAndOther", t_WindGroup_appendPkAndOther);
   ("WindGroup_appendPkWndAndOther", t_WindGroup_appendPkWndAndOther);
   ("WindGroup_appendPkWndDirSpeedHourMinute", t_WindGroup_appendPkWndDirSpeedHourMinute);
   ("WindGroup_appendPkWndDirSpeedMinute", t_WindGroup_appendPkWndDirSpeedMinute);
   ("WindGroup_appendPkWndDirSpeedMinuteNoReportData", t_WindGroup_appendPkWndDirSpeedMinuteNoReportData);
   ("WindGroup_parseWs", t_WindGroup_parseWs);
   ("WindGroup_parseWsAll", t_WindGroup_parseWsAll);
   ("WindGroup_parseWsAllRwy", t_WindGroup_parseWsAllRwy);
   ("WindGroup_appendWsAndOther", t_WindGroup_appendWsAndOther);
   ("WindGroup_appendWsAllAndOther", t_WindGroup_appendWsAllAndOther);
   ("WindGroup_windShearAppendOtherToWsAll", t_WindGroup_windShearAppendOtherToWsAll);
   ("WindGroup_parseWsR32", t_WindGroup_parseWsR32);
   ("WindGroup_parseWsR27C", t_WindGroup_parseWsR27C);
   ("WindGroup_parseWsRwy32", t_WindGroup_parseWsRwy32);
   ("WindGroup_parseWsRwy27C", t_WindGroup_parseWsRwy27C);
   ("WindGroup_windShearAppendToWsRwy", t_WindGroup_windShearAppendToWsRwy);
   ("WindGroup_parseWsWrongReportPart", t_WindGroup_parseWsWrongReportPart);
   ("WindGroup_isValidTrueSurfaceWind", t_WindGroup_isValidTrueSurfaceWind);
   ("WindGroup_isValidFalseSurfaceWind", t_WindGroup_isValidFalseSurfaceWind);
   ("WindGroup_isValidTrueWindShear", t_WindGroup_isValidTrueWindShear);
   ("WindGroup_isValidFalseWindShear", t_WindGroup_isValidFalseWindShear);
   ("WindGroup_isValidTrueVariableWindSector", t_WindGroup_isValidTrueVariableWindSector);
   ("WindGroup_isValidFalseVariableWindSector", t_WindGroup_isValidFalseVariableWindSector);
   ("WindGroup_isValidTruePeakWind", t_WindGroup_isValidTruePeakWind);
   ("WindGroup_isValidFalsePeakWind", t_WindGroup_isValidFalsePeakWind);
   ("WindGroup_isValidTrueWindShift", t_WindGroup_isValidTrueWindShift);
   ("WindGroup_isValidFalseWindShift", t_WindGroup_isValidFalseWindShift);
   ("WindGroup_isValidTrueWsconds", t_WindGroup_isValidTrueWsconds);
   ("WindGroup_isValidWindShearLowerLayersValidRunway", t_WindGroup_isValidWindShearLowerLayersValidRunway);
   ("WindGroup_isValidWindShearLowerLayersWrongRunway", t_WindGroup_isValidWindShearLowerLayersWrongRunway);
   ("WindGroup_isValidWindShearLowerLayersAllRunways", t_WindGroup_isValidWindShearLowerLayersAllRunways)] = [].
Proof. vm_compute. reflexivity. Qed.
