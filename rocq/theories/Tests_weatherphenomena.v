(** Generated by tools/gen_tests.py from /repo/test/test_weatherphenomena.cpp: the project's own unit tests, run
    against the model. These are tests of the model's fidelity, not properties. *)

From Verif Require Import Prim Regex Float Values Weather Groups1 Groups2 Groups3 Groups4 Parser TestLib.
Local Open Scope string_scope.
Local Open Scope bool_scope.

Definition t_WeatherPhenomena_fromString_obscurations_descriptorMI : option N :=
    step 19 ((Wp_fromString "MIFG" false)) (fun v1 => 
    chk 20 (Ok (has_value v1)) (
    chk 21 (let! v2 := deref v1 in Ok (WpQualifier_beq (Wp_qualifier v2) Q_NONE)) (
    chk 22 (let! v3 := deref v1 in Ok (WpDescriptor_beq (Wp_descriptor v3) D_SHALLOW)) (
    chk 23 (let! v4 := deref v1 in Ok (N.eqb (N.of_nat (List.length (Wp_weather v4))) 1%N)) (
    chk 24 (let! v5 := deref v1 in let! v6 := deref (List.nth_error (Wp_weather v5) 0%nat) in Ok (WpWeather_beq v6 W_FOG)) (
    chk 25 (let! v7 := deref v1 in Ok (WpEvent_beq (Wp_event v7) Ev_NONE)) (
    chk 26 (let! v8 := deref v1 in Ok (negb (has_value (wpTm v8)))) (
    None)))))))).

Definition t_WeatherPhenomena_fromString_obscurations_descriptorMI_incorrect : option N :=
    chk 30 (let! v1 := (Wp_fromString "MIRA" false) in Ok (negb (has_value v1))) (
    chk 31 (let! v2 := (Wp_fromString "MIFU" false) in Ok (negb (has_value v2))) (
    chk 32 (let! v3 := (Wp_fromString "MISQ" false) in Ok (negb (has_value v3))) (
    chk 33 (let! v4 := (Wp_fromString "+MIFG" false) in Ok (negb (has_value v4))) (
    chk 34 (let! v5 := (Wp_fromString "VCMIFG" false) in Ok (negb (has_value v5))) (
    None))))).

Definition t_WeatherPhenomena_fromString_obscurations_descriptorPR : option N :=
    step 38 ((Wp_fromString "PRFG" false)) (fun v1 => 
    chk 39 (Ok (has_value v1)) (
    chk 40 (let! v2 := deref v1 in Ok (WpQualifier_beq (Wp_qualifier v2) Q_NONE)) (
    chk 41 (let! v3 := deref v1 in Ok (WpDescriptor_beq (Wp_descriptor v3) D_PARTIAL)) (
    chk 42 (let! v4 := deref v1 in Ok (N.eqb (N.of_nat (List.length (Wp_weather v4))) 1%N)) (
    chk 43 (let! v5 := deref v1 in let! v6 := deref (List.nth_error (Wp_weather v5) 0%nat) in Ok (WpWeather_beq v6 W_FOG)) (
    chk 44 (let! v7 := deref v1 in Ok (WpEvent_beq (Wp_event v7) Ev_NONE)) (
    chk 45 (let! v8 := deref v1 in Ok (negb (has_value (wpTm v8)))) (
    None)))))))).

Definition t_WeatherPhenomena_fromString_obscurations_descriptorPR_incorrect : option N :=
    chk 49 (let! v1 := (Wp_fromString "PRRA" false) in Ok (negb (has_value v1))) (
    chk 50 (let! v2 := (Wp_fromString "PRFU" false) in Ok (negb (has_value v2))) (
    chk 51 (let! v3 := (Wp_fromString "PRSQ" false) in Ok (negb (has_value v3))) (
    chk 52 (let! v4 := (Wp_fromString "+PRFG" false) in Ok (negb (has_value v4))) (
    chk 53 (let! v5 := (Wp_fromString "VCPRFG" false) in Ok (negb (has_value v5))) (
    None))))).

Definition t_WeatherPhenomena_fromString_obscurations_descriptorBC : option N :=
    step 57 ((Wp_fromString "BCFG" false)) (fun v1 => 
    chk 58 (Ok (has_value v1)) (
    chk 59 (let! v2 := deref v1 in Ok (WpQualifier_beq (Wp_qualifier v2) Q_NONE)) (
    chk 60 (let! v3 := deref v1 in Ok (WpDescriptor_beq (Wp_descriptor v3) D_PATCHES)) (
    chk 61 (let! v4 := deref v1 in Ok (N.eqb (N.of_nat (List.length (Wp_weather v4))) 1%N)) (
    chk 62 (let! v5 := deref v1 in let! v6 := deref (List.nth_error (Wp_weather v5) 0%nat) in Ok (WpWeather_beq v6 W_FOG)) (
    chk 63 (let! v7 := deref v1 in Ok (WpEvent_beq (Wp_event v7) Ev_NONE)) (
    chk 64 (let! v8 := deref v1 in Ok (negb (has_value (wpTm v8)))) (
    None)))))))).

Definition t_WeatherPhenomena_fromString_obscurations_descriptorBC_incorrect : option N :=
    chk 68 (let! v1 := (Wp_fromString "BCRA" false) in Ok (negb (has_value v1))) (
    chk 69 (let! v2 := (Wp_fromString "BCFU" false) in Ok (negb (has_value v2))) (
    chk 70 (let! v3 := (Wp_fromString "BCSQ" false) in Ok (negb (has_value v3))) (
    chk 71 (let! v4 := (Wp_fromString "+BCFG" false) in Ok (negb (has_value v4))) (
    chk 72 (let! v5 := (Wp_fromString "VCBCFG" false) in Ok (negb (has_value v5))) (
    None))))).

Definition t_WeatherPhenomena_fromString_obscurations_descriptorDR : option N :=
    step 76 ((Wp_fromString "DRDU" false)) (fun v1 => 
    chk 77 (Ok (has_value v1)) (
    chk 78 (let! v2 := deref v1 in Ok (WpQualifier_beq (Wp_qualifier v2) Q_NONE)) (
    chk 79 (let! v3 := deref v1 in Ok (WpDescriptor_beq (Wp_descriptor v3) D_LOW_DRIFTING)) (
    chk 80 (let! v4 := deref v1 in Ok (N.eqb (N.of_nat (List.length (Wp_weather v4))) 1%N)) (
    chk 81 (let! v5 := deref v1 in let! v6 := deref (List.nth_error (Wp_weather v5) 0%nat) in Ok (WpWeather_beq v6 W_DUST)) (
    chk 82 (let! v7 := deref v1 in Ok (WpEvent_beq (Wp_event v7) Ev_NONE)) (
    chk 83 (let! v8 := deref v1 in Ok (negb (has_value (wpTm v8)))) (
    step 85 ((Wp_fromString "DRSA" false)) (fun v9 => 
    chk 86 (Ok (has_value v9)) (
    chk 87 (let! v10 := deref v9 in Ok (WpQualifier_beq (Wp_qualifier v10) Q_NONE)) (
    chk 88 (let! v11 := deref v9 in Ok (WpDescriptor_beq (Wp_descriptor v11) D_LOW_DRIFTING)) (
    chk 89 (let! v12 := deref v9 in Ok (N.eqb (N.of_nat (List.length (Wp_weather v12))) 1%N)) (
    chk 90 (let! v13 := deref v9 in let! v14 := deref (List.nth_error (Wp_weather v13) 0%nat) in Ok (WpWeather_beq v14 W_SAND)) (
    chk 91 (let! v15 := deref v9 in Ok (WpEvent_beq (Wp_event v15) Ev_NONE)) (
    chk 92 (let! v16 := deref v9 in Ok (negb (has_value (wpTm v16)))) (
    step 94 ((Wp_fromString "DRSN" false)) (fun v17 => 
    chk 95 (Ok (has_value v17)) (
    chk 96 (let! v18 := deref v17 in Ok (WpQualifier_beq (Wp_qualifier v18) Q_NONE)) (
    chk 97 (let! v19 := deref v17 in Ok (WpDescriptor_beq (Wp_descriptor v19) D_LOW_DRIFTING)) (
    chk 98 (let! v20 := deref v17 in Ok (N.eqb (N.of_nat (List.length (Wp_weather v20))) 1%N)) (
    chk 99 (let! v21 := deref v17 in let! v22 := deref (List.nth_error (Wp_weather v21) 0%nat) in Ok (WpWeather_beq v22 W_SNOW)) (
    chk 100 (let! v23 := deref v17 in Ok (WpEvent_beq (Wp_event v23) Ev_NONE)) (
    chk 101 (let! v24 := deref v17 in Ok (negb (has_value (wpTm v24)))) (
    None)))))))))))))))))))))))).

Definition t_WeatherPhenomena_fromString_obscurations_descriptorDR_incorrect : option N :=
    chk 105 (let! v1 := (Wp_fromString "DRRA" false) in Ok (negb (has_value v1))) (
    chk 106 (let! v2 := (Wp_fromString "DRDZ" false) in Ok (negb (has_value v2))) (
    chk 107 (let! v3 := (Wp_fromString "DRFU" false) in Ok (negb (has_value v3))) (
    chk 108 (let! v4 := (Wp_fromString "DRFG" false) in Ok (negb (has_value v4))) (
    chk 109 (let! v5 := (Wp_fromString "DRSQ" false) in Ok (negb (has_value v5))) (
    chk 110 (let! v6 := (Wp_fromString "+DRDU" true) in Ok (negb (has_value v6))) (
    chk 111 (let! v7 := (Wp_fromString "VCDRDU" true) in Ok (negb (has_value v7))) (
    chk 112 (let! v8 := (Wp_fromString "VCDRSA" true) in Ok (negb (has_value v8))) (
    chk 113 (let! v9 := (Wp_fromString "VCDRSN" true) in Ok (negb (has_value v9))) (
    None))))))))).

Definition t_WeatherPhenomena_fromString_obscurations_descriptorBL : option N :=
    step 117 ((Wp_fromString "BLDU" false)) (fun v1 => 
    chk 118 (Ok (has_value v1)) (
    chk 119 (let! v2 := deref v1 in Ok (WpQualifier_beq (Wp_qualifier v2) Q_NONE)) (
    chk 120 (let! v3 := deref v1 in Ok (WpDescriptor_beq (Wp_descriptor v3) D_BLOWING)) (
    chk 121 (let! v4 := deref v1 in Ok (N.eqb (N.of_nat (List.length (Wp_weather v4))) 1%N)) (
    chk 122 (let! v5 := deref v1 in let! v6 := deref (List.nth_error (Wp_weather v5) 0%nat) in Ok (WpWeather_beq v6 W_DUST)) (
    chk 123 (let! v7 := deref v1 in Ok (WpEvent_beq (Wp_event v7) Ev_NONE)) (
    chk 124 (let! v8 := deref v1 in Ok (negb (has_value (wpTm v8)))) (
    step 126 ((Wp_fromString "BLSA" false)) (fun v9 => 
    chk 127 (Ok (has_value v9)) (
    chk 128 (let! v10 := deref v9 in Ok (WpQualifier_beq (Wp_qualifier v10) Q_NONE)) (
    chk 129 (let! v11 := deref v9 in Ok (WpDescriptor_beq (Wp_descriptor v11) D_BLOWING)) (
    chk 130 (let! v12 := deref v9 in Ok (N.eqb (N.of_nat (List.length (Wp_weather v12))) 1%N)) (
    chk 131 (let! v13 := deref v9 in let! v14 := deref (List.nth_error (Wp_weather v13) 0%nat) in Ok (WpWeather_beq v14 W_SAND)) (
    chk 132 (let! v15 := deref v9 in Ok (WpEvent_beq (Wp_event v15) Ev_NONE)) (
    chk 133 (let! v16 := deref v9 in Ok (negb (has_value (wpTm v16)))) (
    step 135 ((Wp_fromString "BLSN" false)) (fun v17 => 
    chk 136 (Ok (has_value v17)) (
    chk 137 (let! v18 := deref v17 in Ok (WpQualifier_beq (Wp_qualifier v18) Q_NONE)) (
    chk 138 (let! v19 := deref v17 in Ok (WpDescriptor_beq (Wp_descriptor v19) D_BLOWING)) (
    chk 139 (let! v20 := deref v17 in Ok (N.eqb (N.of_nat (List.length (Wp_weather v20))) 1%N)) (
    chk 140 (let! v21 := deref v17 in let! v22 := deref (List.nth_error (Wp_weather v21) 0%nat) in Ok (WpWeather_beq v22 W_SNOW)) (
    chk 141 (let! v23 := deref v17 in Ok (WpEvent_beq (Wp_event v23) Ev_NONE)) (
    chk 142 (let! v24 := deref v17 in Ok (negb (has_value (wpTm v24)))) (
    step 144 ((Wp_fromString "BLPY" false)) (fun v25 => 
    chk 145 (Ok (has_value v25)) (
    chk 146 (let! v26 := deref v25 in Ok (WpQualifier_beq (Wp_qualifier v26) Q_NONE)) (
    chk 147 (let! v27 := deref v25 in Ok (WpDescriptor_beq (Wp_descriptor v27) D_BLOWING)) (
    chk 148 (let! v28 := deref v25 in Ok (N.eqb (N.of_nat (List.length (Wp_weather v28))) 1%N)) (
    chk 149 (let! v29 := deref v25 in let! v30 := deref (List.nth_error (Wp_weather v29) 0%nat) in Ok (WpWeather_beq v30 W_SPRAY)) (
    chk 150 (let! v31 := deref v25 in Ok (WpEvent_beq (Wp_event v31) Ev_NONE)) (
    chk 151 (let! v32 := deref v25 in Ok (negb (has_value (wpTm v32)))) (
    None)))))))))))))))))))))))))))))))).

Definition t_WeatherPhenomena_fromString_obscurations_descriptorBL_qualifierVC : option N :=
    chk 155 (let! v1 := (Wp_fromString "VCBLDU" false) in Ok (negb (has_value v1))) (
    step 156 ((Wp_fromString "VCBLDU" true)) (fun v2 => 
    chk 157 (Ok (has_value v2)) (
    chk 158 (let! v3 := deref v2 in Ok (WpQualifier_beq (Wp_qualifier v3) Q_VICINITY)) (
    chk 159 (let! v4 := deref v2 in Ok (WpDescriptor_beq (Wp_descriptor v4) D_BLOWING)) (
    chk 160 (let! v5 := deref v2 in Ok (N.eqb (N.of_nat (List.length (Wp_weather v5))) 1%N)) (
    chk 161 (let! v6 := deref v2 in let! v7 := deref (List.nth_error (Wp_weather v6) 0%nat) in Ok (WpWeather_beq v7 W_DUST)) (
    chk 162 (let! v8 := deref v2 in Ok (WpEvent_beq (Wp_event v8) Ev_NONE)) (
    chk 163 (let! v9 := deref v2 in Ok (negb (has_value (wpTm v9)))) (
    chk 165 (let! v10 := (Wp_fromString "VCBLSA" false) in Ok (negb (has_value v10))) (
    step 166 ((Wp_fromString "VCBLSA" true)) (fun v11 => 
    chk 167 (Ok (has_value v11)) (
    chk 168 (let! v12 := deref v11 in Ok (WpQualifier_beq (Wp_qualifier v12) Q_VICINITY)) (
    chk 169 (let! v13 := deref v11 in Ok (WpDescriptor_beq (Wp_descriptor v13) D_BLOWING)) (
    chk 170 (let! v14 := deref v11 in Ok (N.eqb (N.of_nat (List.length (Wp_weather v14))) 1%N)) (
    chk 171 (let! v15 := deref v11 in let! v16 := deref (List.nth_error (Wp_weather v15) 0%nat) in Ok (WpWeather_beq v16 W_SAND)) (
    chk 172 (let! v17 := deref v11 in Ok (WpEvent_beq (Wp_event v17) Ev_NONE)) (
    chk 173 (let! v18 := deref v11 in Ok (negb (has_value (wpTm v18)))) (
    chk 175 (let! v19 := (Wp_fromString "VCBLSN" false) in Ok (negb (has_value v19))) (
    step 176 ((Wp_fromString "VCBLSN" true)) (fun v20 => 
    chk 177 (Ok (has_value v20)) (
    chk 178 (let! v21 := deref v20 in Ok (WpQualifier_beq (Wp_qualifier v21) Q_VICINITY)) (
    chk 179 (let! v22 := deref v20 in Ok (WpDescriptor_beq (Wp_descriptor v22) D_BLOWING)) (
    chk 180 (let! v23 := deref v20 in Ok (N.eqb (N.of_nat (List.length (Wp_weather v23))) 1%N)) (
    chk 181 (let! v24 := deref v20 in let! v25 := deref (List.nth_error (Wp_weather v24) 0%nat) in Ok (WpWeather_beq v25 W_SNOW)) (
    chk 182 (let! v26 := deref v20 in Ok (WpEvent_beq (Wp_event v26) Ev_NONE)) (
    chk 183 (let! v27 := deref v20 in Ok (negb (has_value (wpTm v27)))) (
    None))))))))))))))))))))))))))).

Definition t_WeatherPhenomena_fromString_obscurations_descriptorBL_incorrect : option N :=
    chk 187 (let! v1 := (Wp_fromString "BLRA" false) in Ok (negb (has_value v1))) (
    chk 188 (let! v2 := (Wp_fromString "BLDZ" false) in Ok (negb (has_value v2))) (
    chk 189 (let! v3 := (Wp_fromString "BLFU" false) in Ok (negb (has_value v3))) (
    chk 190 (let! v4 := (Wp_fromString "BLFG" false) in Ok (negb (has_value v4))) (
    chk 191 (let! v5 := (Wp_fromString "BLSQ" false) in Ok (negb (has_value v5))) (
    chk 192 (let! v6 := (Wp_fromString "+BLDU" true) in Ok (negb (has_value v6))) (
    chk 193 (let! v7 := (Wp_fromString "-BLDU" true) in Ok (negb (has_value v7))) (
    chk 194 (let! v8 := (Wp_fromString "REBLDU" true) in Ok (negb (has_value v8))) (
    chk 195 (let! v9 := (Wp_fromString "VCBLPY" true) in Ok (negb (has_value v9))) (
    chk 196 (let! v10 := (Wp_fromString "REBLPY" true) in Ok (negb (has_value v10))) (
    None)))))))))).

Definition t_WeatherPhenomena_fromString_obscurations_descriptorFZ : option N :=
    step 200 ((Wp_fromString "FZFG" false)) (fun v1 => 
    chk 201 (Ok (has_value v1)) (
    chk 202 (let! v2 := deref v1 in Ok (WpQualifier_beq (Wp_qualifier v2) Q_NONE)) (
    chk 203 (let! v3 := deref v1 in Ok (WpDescriptor_beq (Wp_descriptor v3) D_FREEZING)) (
    chk 204 (let! v4 := deref v1 in Ok (N.eqb (N.of_nat (List.length (Wp_weather v4))) 1%N)) (
    chk 205 (let! v5 := deref v1 in let! v6 := deref (List.nth_error (Wp_weather v5) 0%nat) in Ok (WpWeather_beq v6 W_FOG)) (
    chk 206 (let! v7 := deref v1 in Ok (WpEvent_beq (Wp_event v7) Ev_NONE)) (
    chk 207 (let! v8 := deref v1 in Ok (negb (has_value (wpTm v8)))) (
    None)))))))).

Definition t_WeatherPhenomena_fromString_obscurations_descriptorFZ_incorrect : option N :=
    chk 211 (let! v1 := (Wp_fromString "FZBR" false) in Ok (negb (has_value v1))) (
    chk 212 (let! v2 := (Wp_fromString "FZFU" false) in Ok (negb (has_value v2))) (
    chk 213 (let! v3 := (Wp_fromString "FZSA" false) in Ok (negb (has_value v3))) (
    chk 214 (let! v4 := (Wp_fromString "FZSQ" false) in Ok (negb (has_value v4))) (
    chk 215 (let! v5 := (Wp_fromString "+FZFG" true) in Ok (negb (has_value v5))) (
    chk 216 (let! v6 := (Wp_fromString "VCFZFG" false) in Ok (negb (has_value v6))) (
    None)))))).

Definition t_WeatherPhenomena_fromString_obscurations_BR : option N :=
    step 226 ((Wp_fromString "BR" false)) (fun v1 => 
    chk 227 (Ok (has_value v1)) (
    chk 228 (let! v2 := deref v1 in Ok (WpQualifier_beq (Wp_qualifier v2) Q_NONE)) (
    chk 229 (let! v3 := deref v1 in Ok (WpDescriptor_beq (Wp_descriptor v3) D_NONE)) (
    chk 230 (let! v4 := deref v1 in Ok (N.eqb (N.of_nat (List.length (Wp_weather v4))) 1%N)) (
    chk 231 (let! v5 := deref v1 in let! v6 := deref (List.nth_error (Wp_weather v5) 0%nat) in Ok (WpWeather_beq v6 W_MIST)) (
    chk 232 (let! v7 := deref v1 in Ok (WpEvent_beq (Wp_event v7) Ev_NONE)) (
    chk 233 (let! v8 := deref v1 in Ok (negb (has_value (wpTm v8)))) (
    None)))))))).

Definition t_WeatherPhenomena_fromString_obscurations_FG : option N :=
    step 237 ((Wp_fromString "FG" false)) (fun v1 => 
    chk 238 (Ok (has_value v1)) (
    chk 239 (let! v2 := deref v1 in Ok (WpQualifier_beq (Wp_qualifier v2) Q_NONE)) (
    chk 240 (let! v3 := deref v1 in Ok (WpDescriptor_beq (Wp_descriptor v3) D_NONE)) (
    chk 241 (let! v4 := deref v1 in Ok (N.eqb (N.of_nat (List.length (Wp_weather v4))) 1%N)) (
    chk 242 (let! v5 := deref v1 in let! v6 := deref (List.nth_error (Wp_weather v5) 0%nat) in Ok (WpWeather_beq v6 W_FOG)) (
    chk 243 (let! v7 := deref v1 in Ok (WpEvent_beq (Wp_event v7) Ev_NONE)) (
    chk 244 (let! v8 := deref v1 in Ok (negb (has_value (wpTm v8)))) (
    None)))))))).

Definition t_WeatherPhenomena_fromString_obscurations_FU : option N :=
    step 248 ((Wp_fromString "FU" false)) (fun v1 => 
    chk 249 (Ok (has_value v1)) (
    chk 250 (let! v2 := deref v1 in Ok (WpQualifier_beq (Wp_qualifier v2) Q_NONE)) (
    chk 251 (let! v3 := deref v1 in Ok (WpDescriptor_beq (Wp_descriptor v3) D_NONE)) (
    chk 252 (let! v4 := deref v1 in Ok (N.eqb (N.of_nat (List.length (Wp_weather v4))) 1%N)) (
    chk 253 (let! v5 := deref v1 in let! v6 := deref (List.nth_error (Wp_weather v5) 0%nat) in Ok (WpWeather_beq v6 W_SMOKE)) (
    chk 254 (let! v7 := deref v1 in Ok (WpEvent_beq (Wp_event v7) Ev_NONE)) (
    chk 255 (let! v8 := deref v1 in Ok (negb (has_value (wpTm v8)))) (
    None)))))))).

Definition t_WeatherPhenomena_fromString_obscurations_VA : option N :=
    step 259 ((Wp_fromString "VA" false)) (fun v1 => 
    chk 260 (Ok (has_value v1)) (
    chk 261 (let! v2 := deref v1 in Ok (WpQualifier_beq (Wp_qualifier v2) Q_NONE)) (
    chk 262 (let! v3 := deref v1 in Ok (WpDescriptor_beq (Wp_descriptor v3) D_NONE)) (
    chk 263 (let! v4 := deref v1 in Ok (N.eqb (N.of_nat (List.length (Wp_weather v4))) 1%N)) (
    chk 264 (let! v5 := deref v1 in let! v6 := deref (List.nth_error (Wp_weather v5) 0%nat) in Ok (WpWeather_beq v6 W_VOLCANIC_ASH)) (
    chk 265 (let! v7 := deref v1 in Ok (WpEvent_beq (Wp_event v7) Ev_NONE)) (
    chk 266 (let! v8 := deref v1 in Ok (negb (has_value (wpTm v8)))) (
    None)))))))).

Definition t_WeatherPhenomena_fromString_obscurations_DU : option N :=
    step 270 ((Wp_fromString "DU" false)) (fun v1 => 
    chk 271 (Ok (has_value v1)) (
    chk 272 (let! v2 := deref v1 in Ok (WpQualifier_beq (Wp_qualifier v2) Q_NONE)) (
    chk 273 (let! v3 := deref v1 in Ok (WpDescriptor_beq (Wp_descriptor v3) D_NONE)) (
    chk 274 (let! v4 := deref v1 in Ok (N.eqb (N.of_nat (List.length (Wp_weather v4))) 1%N)) (
    chk 275 (let! v5 := deref v1 in let! v6 := deref (List.nth_error (Wp_weather v5) 0%nat) in Ok (WpWeather_beq v6 W_DUST)) (
    chk 276 (let! v7 := deref v1 in Ok (WpEvent_beq (Wp_event v7) Ev_NONE)) (
    chk 277 (let! v8 := deref v1 in Ok (negb (has_value (wpTm v8)))) (
    None)))))))).

Definition t_WeatherPhenomena_fromString_obscurations_SA : option N :=
    step 281 ((Wp_fromString "SA" false)) (fun v1 => 
    chk 282 (Ok (has_value v1)) (
    chk 283 (let! v2 := deref v1 in Ok (WpQualifier_beq (Wp_qualifier v2) Q_NONE)) (
    chk 284 (let! v3 := deref v1 in Ok (WpDescriptor_beq (Wp_descriptor v3) D_NONE)) (
    chk 285 (let! v4 := deref v1 in Ok (N.eqb (N.of_nat (List.length (Wp_weather v4))) 1%N)) (
    chk 286 (let! v5 := deref v1 in let! v6 := deref (List.nth_error (Wp_weather v5) 0%nat) in Ok (WpWeather_beq v6 W_SAND)) (
    chk 287 (let! v7 := deref v1 in Ok (WpEvent_beq (Wp_event v7) Ev_NONE)) (
    chk 288 (let! v8 := deref v1 in Ok (negb (has_value (wpTm v8)))) (
    None)))))))).

Definition t_WeatherPhenomena_fromString_obscurations_HZ : option N :=
    step 292 ((Wp_fromString "HZ" false)) (fun v1 => 
    chk 293 (Ok (has_value v1)) (
    chk 294 (let! v2 := deref v1 in Ok (WpQualifier_beq (Wp_qualifier v2) Q_NONE)) (
    chk 295 (let! v3 := deref v1 in Ok (WpDescriptor_beq (Wp_descriptor v3) D_NONE)) (
    chk 296 (let! v4 := deref v1 in Ok (N.eqb (N.of_nat (List.length (Wp_weather v4))) 1%N)) (
    chk 297 (let! v5 := deref v1 in let! v6 := deref (List.nth_error (Wp_weather v5) 0%nat) in Ok (WpWeather_beq v6 W_HAZE)) (
    chk 298 (let! v7 := deref v1 in Ok (WpEvent_beq (Wp_event v7) Ev_NONE)) (
    chk 299 (let! v8 := deref v1 in Ok (negb (has_value (wpTm v8)))) (
    None)))))))).

Definition t_WeatherPhenomena_fromString_obscurations_qualifier_VC : option N :=
    step 303 ((Wp_fromString "VCFG" true)) (fun v1 => 
    chk 304 (Ok (has_value v1)) (
    chk 305 (let! v2 := deref v1 in Ok (WpQualifier_beq (Wp_qualifier v2) Q_VICINITY)) (
    chk 306 (let! v3 := deref v1 in Ok (WpDescriptor_beq (Wp_descriptor v3) D_NONE)) (
    chk 307 (let! v4 := deref v1 in Ok (N.eqb (N.of_nat (List.length (Wp_weather v4))) 1%N)) (
    chk 308 (let! v5 := deref v1 in let! v6 := deref (List.nth_error (Wp_weather v5) 0%nat) in Ok (WpWeather_beq v6 W_FOG)) (
    chk 309 (let! v7 := deref v1 in Ok (WpEvent_beq (Wp_event v7) Ev_NONE)) (
    chk 310 (let! v8 := deref v1 in Ok (negb (has_value (wpTm v8)))) (
    step 312 ((Wp_fromString "VCVA" true)) (fun v9 => 
    chk 313 (Ok (has_value v9)) (
    chk 314 (let! v10 := deref v9 in Ok (WpQualifier_beq (Wp_qualifier v10) Q_VICINITY)) (
    chk 315 (let! v11 := deref v9 in Ok (WpDescriptor_beq (Wp_descriptor v11) D_NONE)) (
    chk 316 (let! v12 := deref v9 in Ok (N.eqb (N.of_nat (List.length (Wp_weather v12))) 1%N)) (
    chk 317 (let! v13 := deref v9 in let! v14 := deref (List.nth_error (Wp_weather v13) 0%nat) in Ok (WpWeather_beq v14 W_VOLCANIC_ASH)) (
    chk 318 (let! v15 := deref v9 in Ok (WpEvent_beq (Wp_event v15) Ev_NONE)) (
    chk 319 (let! v16 := deref v9 in Ok (negb (has_value (wpTm v16)))) (
    None)))))))))))))))).

Definition t_WeatherPhenomena_fromString_obscurations_incorrect : option N :=
    chk 323 (let! v1 := (Wp_fromString "PY" false) in Ok (negb (has_value v1))) (
    chk 324 (let! v2 := (Wp_fromString "BRFU" false) in Ok (negb (has_value v2))) (
    chk 325 (let! v3 := (Wp_fromString "HZDU" false) in Ok (negb (has_value v3))) (
    chk 326 (let! v4 := (Wp_fromString "BRBR" false) in Ok (negb (has_value v4))) (
    chk 327 (let! v5 := (Wp_fromString "VASADU" false) in Ok (negb (has_value v5))) (
    chk 328 (let! v6 := (Wp_fromString "+DU" true) in Ok (negb (has_value v6))) (
    chk 329 (let! v7 := (Wp_fromString "-FG" true) in Ok (negb (has_value v7))) (
    chk 330 (let! v8 := (Wp_fromString "REFG" true) in Ok (negb (has_value v8))) (
    chk 331 (let! v9 := (Wp_fromString "VCBR" false) in Ok (negb (has_value v9))) (
    chk 332 (let! v10 := (Wp_fromString "VCFU" false) in Ok (negb (has_value v10))) (
    chk 333 (let! v11 := (Wp_fromString "VCDU" false) in Ok (negb (has_value v11))) (
    chk 334 (let! v12 := (Wp_fromString "VCSA" false) in Ok (negb (has_value v12))) (
    chk 335 (let! v13 := (Wp_fromString "VCHZ" false) in Ok (negb (has_value v13))) (
    None))))))))))))).

Definition t_WeatherPhenomena_fromString_other_descriptorTS : option N :=
    step 345 ((Wp_fromString "TS" false)) (fun v1 => 
    chk 346 (Ok (has_value v1)) (
    chk 347 (let! v2 := deref v1 in Ok (WpQualifier_beq (Wp_qualifier v2) Q_NONE)) (
    chk 348 (let! v3 := deref v1 in Ok (WpDescriptor_beq (Wp_descriptor v3) D_THUNDERSTORM)) (
    chk 349 (let! v4 := deref v1 in Ok (N.eqb (N.of_nat (List.length (Wp_weather v4))) 0%N)) (
    chk 350 (let! v5 := deref v1 in Ok (WpEvent_beq (Wp_event v5) Ev_NONE)) (
    chk 351 (let! v6 := deref v1 in Ok (negb (has_value (wpTm v6)))) (
    None))))))).

Definition t_WeatherPhenomena_fromString_other_descriptorTS_qualifierVC : option N :=
    chk 355 (let! v1 := (Wp_fromString "VCTS" false) in Ok (negb (has_value v1))) (
    step 356 ((Wp_fromString "VCTS" true)) (fun v2 => 
    chk 357 (Ok (has_value v2)) (
    chk 358 (let! v3 := deref v2 in Ok (WpQualifier_beq (Wp_qualifier v3) Q_VICINITY)) (
    chk 359 (let! v4 := deref v2 in Ok (WpDescriptor_beq (Wp_descriptor v4) D_THUNDERSTORM)) (
    chk 360 (let! v5 := deref v2 in Ok (N.eqb (N.of_nat (List.length (Wp_weather v5))) 0%N)) (
    chk 361 (let! v6 := deref v2 in Ok (WpEvent_beq (Wp_event v6) Ev_NONE)) (
    chk 362 (let! v7 := deref v2 in Ok (negb (has_value (wpTm v7)))) (
    None)))))))).

Definition t_WeatherPhenomena_fromString_obscurations_descriptor_TS_incorrect : option N :=
    chk 366 (let! v1 := (Wp_fromString "TSTS" false) in Ok (negb (has_value v1))) (
    chk 367 (let! v2 := (Wp_fromString "+TS" true) in Ok (negb (has_value v2))) (
    chk 368 (let! v3 := (Wp_fromString "-TS" true) in Ok (negb (has_value v3))) (
    chk 369 (let! v4 := (Wp_fromString "FZTS" false) in Ok (negb (has_value v4))) (
    chk 370 (let! v5 := (Wp_fromString "TSBR" false) in Ok (negb (has_value v5))) (
    chk 371 (let! v6 := (Wp_fromString "TSFG" false) in Ok (negb (has_value v6))) (
    chk 372 (let! v7 := (Wp_fromString "TSFU" false) in Ok (negb (has_value v7))) (
    chk 373 (let! v8 := (Wp_fromString "TSDU" false) in Ok (negb (has_value v8))) (
    chk 374 (let! v9 := (Wp_fromString "TSSA" false) in Ok (negb (has_value v9))) (
    chk 375 (let! v10 := (Wp_fromString "TSHZ" false) in Ok (negb (has_value v10))) (
    chk 376 (let! v11 := (Wp_fromString "TSFG" false) in Ok (negb (has_value v11))) (
    chk 377 (let! v12 := (Wp_fromString "TSSQ" false) in Ok (negb (has_value v12))) (
    chk 378 (let! v13 := (Wp_fromString "TSFC" false) in Ok (negb (has_value v13))) (
    chk 379 (let! v14 := (Wp_fromString "TSDS" false) in Ok (negb (has_value v14))) (
    chk 380 (let! v15 := (Wp_fromString "TSSS" false) in Ok (negb (has_value v15))) (
    None))))))))))))))).

Definition t_WeatherPhenomena_fromString_other_descriptorSH_qualifierVC : option N :=
    chk 384 (let! v1 := (Wp_fromString "VCSH" false) in Ok (negb (has_value v1))) (
    step 385 ((Wp_fromString "VCSH" true)) (fun v2 => 
    chk 386 (Ok (has_value v2)) (
    chk 387 (let! v3 := deref v2 in Ok (WpQualifier_beq (Wp_qualifier v3) Q_VICINITY)) (
    chk 388 (let! v4 := deref v2 in Ok (WpDescriptor_beq (Wp_descriptor v4) D_SHOWERS)) (
    chk 389 (let! v5 := deref v2 in Ok (N.eqb (N.of_nat (List.length (Wp_weather v5))) 0%N)) (
    chk 390 (let! v6 := deref v2 in Ok (WpEvent_beq (Wp_event v6) Ev_NONE)) (
    chk 391 (let! v7 := deref v2 in Ok (negb (has_value (wpTm v7)))) (
    None)))))))).

Definition t_WeatherPhenomena_fromString_obscurations_descriptorSH_incorrect : option N :=
    chk 395 (let! v1 := (Wp_fromString "SH" false) in Ok (negb (has_value v1))) (
    chk 396 (let! v2 := (Wp_fromString "SHSH" false) in Ok (negb (has_value v2))) (
    chk 397 (let! v3 := (Wp_fromString "+SH" true) in Ok (negb (has_value v3))) (
    chk 398 (let! v4 := (Wp_fromString "-SH" true) in Ok (negb (has_value v4))) (
    chk 399 (let! v5 := (Wp_fromString "FZSH" false) in Ok (negb (has_value v5))) (
    chk 400 (let! v6 := (Wp_fromString "SHBR" false) in Ok (negb (has_value v6))) (
    chk 401 (let! v7 := (Wp_fromString "SHFG" false) in Ok (negb (has_value v7))) (
    chk 402 (let! v8 := (Wp_fromString "SHFU" false) in Ok (negb (has_value v8))) (
    chk 403 (let! v9 := (Wp_fromString "SHDU" false) in Ok (negb (has_value v9))) (
    chk 404 (let! v10 := (Wp_fromString "SHSA" false) in Ok (negb (has_value v10))) (
    chk 405 (let! v11 := (Wp_fromString "SHHZ" false) in Ok (negb (has_value v11))) (
    chk 406 (let! v12 := (Wp_fromString "SHFG" false) in Ok (negb (has_value v12))) (
    chk 407 (let! v13 := (Wp_fromString "SHSQ" false) in Ok (negb (has_value v13))) (
    chk 408 (let! v14 := (Wp_fromString "SHFC" false) in Ok (negb (has_value v14))) (
    chk 409 (let! v15 := (Wp_fromString "SHDS" false) in Ok (negb (has_value v15))) (
    chk 410 (let! v16 := (Wp_fromString "SHSS" false) in Ok (negb (has_value v16))) (
    None)))))))))))))))).

Definition t_WeatherPhenomena_fromString_other_PO : option N :=
    step 421 ((Wp_fromString "PO" false)) (fun v1 => 
    chk 422 (Ok (has_value v1)) (
    chk 423 (let! v2 := deref v1 in Ok (WpQualifier_beq (Wp_qualifier v2) Q_NONE)) (
    chk 424 (let! v3 := deref v1 in Ok (WpDescriptor_beq (Wp_descriptor v3) D_NONE)) (
    chk 425 (let! v4 := deref v1 in Ok (N.eqb (N.of_nat (List.length (Wp_weather v4))) 1%N)) (
    chk 426 (let! v5 := deref v1 in let! v6 := deref (List.nth_error (Wp_weather v5) 0%nat) in Ok (WpWeather_beq v6 W_DUST_WHIRLS)) (
    chk 427 (let! v7 := deref v1 in Ok (WpEvent_beq (Wp_event v7) Ev_NONE)) (
    chk 428 (let! v8 := deref v1 in Ok (negb (has_value (wpTm v8)))) (
    None)))))))).

Definition t_WeatherPhenomena_fromString_other_SQ : option N :=
    step 432 ((Wp_fromString "SQ" false)) (fun v1 => 
    chk 433 (Ok (has_value v1)) (
    chk 434 (let! v2 := deref v1 in Ok (WpQualifier_beq (Wp_qualifier v2) Q_NONE)) (
    chk 435 (let! v3 := deref v1 in Ok (WpDescriptor_beq (Wp_descriptor v3) D_NONE)) (
    chk 436 (let! v4 := deref v1 in Ok (N.eqb (N.of_nat (List.length (Wp_weather v4))) 1%N)) (
    chk 437 (let! v5 := deref v1 in let! v6 := deref (List.nth_error (Wp_weather v5) 0%nat) in Ok (WpWeather_beq v6 W_SQUALLS)) (
    chk 438 (let! v7 := deref v1 in Ok (WpEvent_beq (Wp_event v7) Ev_NONE)) (
    chk 439 (let! v8 := deref v1 in Ok (negb (has_value (wpTm v8)))) (
    None)))))))).

Definition t_WeatherPhenomena_fromString_other_FC : option N :=
    step 443 ((Wp_fromString "FC" false)) (fun v1 => 
    chk 444 (Ok (has_value v1)) (
    chk 445 (let! v2 := deref v1 in Ok (WpQualifier_beq (Wp_qualifier v2) Q_NONE)) (
    chk 446 (let! v3 := deref v1 in Ok (WpDescriptor_beq (Wp_descriptor v3) D_NONE)) (
    chk 447 (let! v4 := deref v1 in Ok (N.eqb (N.of_nat (List.length (Wp_weather v4))) 1%N)) (
    chk 448 (let! v5 := deref v1 in let! v6 := deref (List.nth_error (Wp_weather v5) 0%nat) in Ok (WpWeather_beq v6 W_FUNNEL_CLOUD)) (
    chk 449 (let! v7 := deref v1 in Ok (WpEvent_beq (Wp_event v7) Ev_NONE)) (
    chk 450 (let! v8 := deref v1 in Ok (negb (has_value (wpTm v8)))) (
    chk 452 (let! v9 := (Wp_fromString "+FC" false) in Ok (negb (has_value v9))) (
    step 454 ((Wp_fromString "+FC" true)) (fun v10 => 
    chk 455 (Ok (has_value v10)) (
    chk 456 (let! v11 := deref v10 in Ok (WpQualifier_beq (Wp_qualifier v11) Q_HEAVY)) (
    chk 457 (let! v12 := deref v10 in Ok (WpDescriptor_beq (Wp_descriptor v12) D_NONE)) (
    chk 458 (let! v13 := deref v10 in Ok (N.eqb (N.of_nat (List.length (Wp_weather v13))) 1%N)) (
    chk 459 (let! v14 := deref v10 in let! v15 := deref (List.nth_error (Wp_weather v14) 0%nat) in Ok (WpWeather_beq v15 W_FUNNEL_CLOUD)) (
    chk 460 (let! v16 := deref v10 in Ok (WpEvent_beq (Wp_event v16) Ev_NONE)) (
    chk 461 (let! v17 := deref v10 in Ok (negb (has_value (wpTm v17)))) (
    None))))))))))))))))).

Definition t_WeatherPhenomena_fromString_other_qualifier_VC : option N :=
    step 465 ((Wp_fromString "VCPO" true)) (fun v1 => 
    chk 466 (Ok (has_value v1)) (
    chk 467 (let! v2 := deref v1 in Ok (WpQualifier_beq (Wp_qualifier v2) Q_VICINITY)) (
    chk 468 (let! v3 := deref v1 in Ok (WpDescriptor_beq (Wp_descriptor v3) D_NONE)) (
    chk 469 (let! v4 := deref v1 in Ok (N.eqb (N.of_nat (List.length (Wp_weather v4))) 1%N)) (
    chk 470 (let! v5 := deref v1 in let! v6 := deref (List.nth_error (Wp_weather v5) 0%nat) in Ok (WpWeather_beq v6 W_DUST_WHIRLS)) (
    chk 471 (let! v7 := deref v1 in Ok (WpEvent_beq (Wp_event v7) Ev_NONE)) (
    chk 472 (let! v8 := deref v1 in Ok (negb (has_value (wpTm v8)))) (
    step 474 ((Wp_fromString "VCFC" true)) (fun v9 => 
    chk 475 (Ok (has_value v9)) (
    chk 476 (let! v10 := deref v9 in Ok (WpQualifier_beq (Wp_qualifier v10) Q_VICINITY)) (
    chk 477 (let! v11 := deref v9 in Ok (WpDescriptor_beq (Wp_descriptor v11) D_NONE)) (
    chk 478 (let! v12 := deref v9 in Ok (N.eqb (N.of_nat (List.length (Wp_weather v12))) 1%N)) (
    chk 479 (let! v13 := deref v9 in let! v14 := deref (List.nth_error (Wp_weather v13) 0%nat) in Ok (WpWeather_beq v14 W_FUNNEL_CLOUD)) (
    chk 480 (let! v15 := deref v9 in Ok (WpEvent_beq (Wp_event v15) Ev_NONE)) (
    chk 481 (let! v16 := deref v9 in Ok (negb (has_value (wpTm v16)))) (
    None)))))))))))))))).

Definition t_WeatherPhenomena_fromString_other_incorrect : option N :=
    chk 485 (let! v1 := (Wp_fromString "FCSQ" false) in Ok (negb (has_value v1))) (
    chk 486 (let! v2 := (Wp_fromString "FCPO" false) in Ok (negb (has_value v2))) (
    chk 487 (let! v3 := (Wp_fromString "VCSQ" true) in Ok (negb (has_value v3))) (
    chk 488 (let! v4 := (Wp_fromString "+PO" true) in Ok (negb (has_value v4))) (
    chk 489 (let! v5 := (Wp_fromString "+SQ" true) in Ok (negb (has_value v5))) (
    chk 490 (let! v6 := (Wp_fromString "-FC" true) in Ok (negb (has_value v6))) (
    chk 491 (let! v7 := (Wp_fromString "RESQ" true) in Ok (negb (has_value v7))) (
    chk 492 (let! v8 := (Wp_fromString "+VCPO" true) in Ok (negb (has_value v8))) (
    chk 493 (let! v9 := (Wp_fromString "+VCFC" true) in Ok (negb (has_value v9))) (
    None))))))))).

Definition t_WeatherPhenomena_fromString_other_DS : option N :=
    step 503 ((Wp_fromString "DS" false)) (fun v1 => 
    chk 504 (Ok (has_value v1)) (
    chk 505 (let! v2 := deref v1 in Ok (WpQualifier_beq (Wp_qualifier v2) Q_NONE)) (
    chk 506 (let! v3 := deref v1 in Ok (WpDescriptor_beq (Wp_descriptor v3) D_NONE)) (
    chk 507 (let! v4 := deref v1 in Ok (N.eqb (N.of_nat (List.length (Wp_weather v4))) 1%N)) (
    chk 508 (let! v5 := deref v1 in let! v6 := deref (List.nth_error (Wp_weather v5) 0%nat) in Ok (WpWeather_beq v6 W_DUSTSTORM)) (
    chk 509 (let! v7 := deref v1 in Ok (WpEvent_beq (Wp_event v7) Ev_NONE)) (
    chk 510 (let! v8 := deref v1 in Ok (negb (has_value (wpTm v8)))) (
    chk 512 (let! v9 := (Wp_fromString "+DS" false) in Ok (negb (has_value v9))) (
    step 514 ((Wp_fromString "+DS" true)) (fun v10 => 
    chk 515 (Ok (has_value v10)) (
    chk 516 (let! v11 := deref v10 in Ok (WpQualifier_beq (Wp_qualifier v11) Q_HEAVY)) (
    chk 517 (let! v12 := deref v10 in Ok (WpDescriptor_beq (Wp_descriptor v12) D_NONE)) (
    chk 518 (let! v13 := deref v10 in Ok (N.eqb (N.of_nat (List.length (Wp_weather v13))) 1%N)) (
    chk 519 (let! v14 := deref v10 in let! v15 := deref (List.nth_error (Wp_weather v14) 0%nat) in Ok (WpWeather_beq v15 W_DUSTSTORM)) (
    chk 520 (let! v16 := deref v10 in Ok (WpEvent_beq (Wp_event v16) Ev_NONE)) (
    chk 521 (let! v17 := deref v10 in Ok (negb (has_value (wpTm v17)))) (
    None))))))))))))))))).

Definition t_WeatherPhenomena_fromString_other_SS : option N :=
    step 525 ((Wp_fromString "SS" false)) (fun v1 => 
    chk 526 (Ok (has_value v1)) (
    chk 527 (let! v2 := deref v1 in Ok (WpQualifier_beq (Wp_qualifier v2) Q_NONE)) (
    chk 528 (let! v3 := deref v1 in Ok (WpDescriptor_beq (Wp_descriptor v3) D_NONE)) (
    chk 529 (let! v4 := deref v1 in Ok (N.eqb (N.of_nat (List.length (Wp_weather v4))) 1%N)) (
    chk 530 (let! v5 := deref v1 in let! v6 := deref (List.nth_error (Wp_weather v5) 0%nat) in Ok (WpWeather_beq v6 W_SANDSTORM)) (
    chk 531 (let! v7 := deref v1 in Ok (WpEvent_beq (Wp_event v7) Ev_NONE)) (
    chk 532 (let! v8 := deref v1 in Ok (negb (has_value (wpTm v8)))) (
    chk 534 (let! v9 := (Wp_fromString "+SS" false) in Ok (negb (has_value v9))) (
    step 536 ((Wp_fromString "+SS" true)) (fun v10 => 
    chk 537 (Ok (has_value v10)) (
    chk 538 (let! v11 := deref v10 in Ok (WpQualifier_beq (Wp_qualifier v11) Q_HEAVY)) (
    chk 539 (let! v12 := deref v10 in Ok (WpDescriptor_beq (Wp_descriptor v12) D_NONE)) (
    chk 540 (let! v13 := deref v10 in Ok (N.eqb (N.of_nat (List.length (Wp_weather v13))) 1%N)) (
    chk 541 (let! v14 := deref v10 in let! v15 := deref (List.nth_error (Wp_weather v14) 0%nat) in Ok (WpWeather_beq v15 W_SANDSTORM)) (
    chk 542 (let! v16 := deref v10 in Ok (WpEvent_beq (Wp_event v16) Ev_NONE)) (
    chk 543 (let! v17 := deref v10 in Ok (negb (has_value (wpTm v17)))) (
    None))))))))))))))))).

Definition t_WeatherPhenomena_fromString_other_DSSS : option N :=
    step 547 ((Wp_fromString "DSSS" false)) (fun v1 => 
    chk 548 (Ok (has_value v1)) (
    chk 549 (let! v2 := deref v1 in Ok (WpQualifier_beq (Wp_qualifier v2) Q_NONE)) (
    chk 550 (let! v3 := deref v1 in Ok (WpDescriptor_beq (Wp_descriptor v3) D_NONE)) (
    chk 551 (let! v4 := deref v1 in Ok (N.eqb (N.of_nat (List.length (Wp_weather v4))) 2%N)) (
    chk 552 (let! v5 := deref v1 in let! v6 := deref (List.nth_error (Wp_weather v5) 0%nat) in Ok (WpWeather_beq v6 W_DUSTSTORM)) (
    chk 553 (let! v7 := deref v1 in let! v8 := deref (List.nth_error (Wp_weather v7) 1%nat) in Ok (WpWeather_beq v8 W_SANDSTORM)) (
    chk 554 (let! v9 := deref v1 in Ok (WpEvent_beq (Wp_event v9) Ev_NONE)) (
    chk 555 (let! v10 := deref v1 in Ok (negb (has_value (wpTm v10)))) (
    chk 557 (let! v11 := (Wp_fromString "+DSSS" false) in Ok (negb (has_value v11))) (
    step 559 ((Wp_fromString "+DSSS" true)) (fun v12 => 
    chk 560 (Ok (has_value v12)) (
    chk 561 (let! v13 := deref v12 in Ok (WpQualifier_beq (Wp_qualifier v13) Q_HEAVY)) (
    chk 562 (let! v14 := deref v12 in Ok (WpDescriptor_beq (Wp_descriptor v14) D_NONE)) (
    chk 563 (let! v15 := deref v1 in Ok (N.eqb (N.of_nat (List.length (Wp_weather v15))) 2%N)) (
    chk 564 (let! v16 := deref v1 in let! v17 := deref (List.nth_error (Wp_weather v16) 0%nat) in Ok (WpWeather_beq v17 W_DUSTSTORM)) (
    chk 565 (let! v18 := deref v1 in let! v19 := deref (List.nth_error (Wp_weather v18) 1%nat) in Ok (WpWeather_beq v19 W_SANDSTORM)) (
    chk 566 (let! v20 := deref v12 in Ok (WpEvent_beq (Wp_event v20) Ev_NONE)) (
    chk 567 (let! v21 := deref v12 in Ok (negb (has_value (wpTm v21)))) (
    None))))))))))))))))))).

Definition t_WeatherPhenomena_fromString_other_SSDS : option N :=
    step 571 ((Wp_fromString "SSDS" false)) (fun v1 => 
    chk 572 (Ok (has_value v1)) (
    chk 573 (let! v2 := deref v1 in Ok (WpQualifier_beq (Wp_qualifier v2) Q_NONE)) (
    chk 574 (let! v3 := deref v1 in Ok (WpDescriptor_beq (Wp_descriptor v3) D_NONE)) (
    chk 575 (let! v4 := deref v1 in Ok (N.eqb (N.of_nat (List.length (Wp_weather v4))) 2%N)) (
    chk 576 (let! v5 := deref v1 in let! v6 := deref (List.nth_error (Wp_weather v5) 0%nat) in Ok (WpWeather_beq v6 W_SANDSTORM)) (
    chk 577 (let! v7 := deref v1 in let! v8 := deref (List.nth_error (Wp_weather v7) 1%nat) in Ok (WpWeather_beq v8 W_DUSTSTORM)) (
    chk 578 (let! v9 := deref v1 in Ok (WpEvent_beq (Wp_event v9) Ev_NONE)) (
    chk 579 (let! v10 := deref v1 in Ok (negb (has_value (wpTm v10)))) (
    chk 581 (let! v11 := (Wp_fromString "+SSDS" false) in Ok (negb (has_value v11))) (
    step 583 ((Wp_fromString "+SSDS" true)) (fun v12 => 
    chk 584 (Ok (has_value v12)) (
    chk 585 (let! v13 := deref v12 in Ok (WpQualifier_beq (Wp_qualifier v13) Q_HEAVY)) (
    chk 586 (let! v14 := deref v12 in Ok (WpDescriptor_beq (Wp_descriptor v14) D_NONE)) (
    chk 587 (let! v15 := deref v1 in Ok (N.eqb (N.of_nat (List.length (Wp_weather v15))) 2%N)) (
    chk 588 (let! v16 := deref v1 in let! v17 := deref (List.nth_error (Wp_weather v16) 0%nat) in Ok (WpWeather_beq v17 W_SANDSTORM)) (
    chk 589 (let! v18 := deref v1 in let! v19 := deref (List.nth_error (Wp_weather v18) 1%nat) in Ok (WpWeather_beq v19 W_DUSTSTORM)) (
    chk 590 (let! v20 := deref v12 in Ok (WpEvent_beq (Wp_event v20) Ev_NONE)) (
    chk 591 (let! v21 := deref v12 in Ok (negb (has_value (wpTm v21)))) (
    None))))))))))))))))))).

Definition t_WeatherPhenomena_fromString_other_DS_SS_incorrect : option N :=
    chk 595 (let! v1 := (Wp_fromString "DSSQ" false) in Ok (negb (has_value v1))) (
    chk 596 (let! v2 := (Wp_fromString "SSSQ" false) in Ok (negb (has_value v2))) (
    chk 597 (let! v3 := (Wp_fromString "-DS" true) in Ok (negb (has_value v3))) (
    chk 598 (let! v4 := (Wp_fromString "-SS" true) in Ok (negb (has_value v4))) (
    chk 599 (let! v5 := (Wp_fromString "DSDS" false) in Ok (negb (has_value v5))) (
    chk 600 (let! v6 := (Wp_fromString "SSSS" false) in Ok (negb (has_value v6))) (
    chk 601 (let! v7 := (Wp_fromString "+DSDS" true) in Ok (negb (has_value v7))) (
    chk 602 (let! v8 := (Wp_fromString "+SSSS" true) in Ok (negb (has_value v8))) (
    chk 603 (let! v9 := (Wp_fromString "-DSSS" true) in Ok (negb (has_value v9))) (
    chk 604 (let! v10 := (Wp_fromString "-SSDS" true) in Ok (negb (has_value v10))) (
    chk 605 (let! v11 := (Wp_fromString "REDSSS" true) in Ok (negb (has_value v11))) (
    chk 606 (let! v12 := (Wp_fromString "RESSDS" true) in Ok (negb (has_value v12))) (
    None)))))))))))).

Definition t_WeatherPhenomena_fromString_DS_SS_qualifier_vc : option N :=
    step 610 ((Wp_fromString "VCSS" true)) (fun v1 => 
    chk 611 (Ok (has_value v1)) (
    chk 612 (let! v2 := deref v1 in Ok (WpQualifier_beq (Wp_qualifier v2) Q_VICINITY)) (
    chk 613 (let! v3 := deref v1 in Ok (WpDescriptor_beq (Wp_descriptor v3) D_NONE)) (
    chk 614 (let! v4 := deref v1 in Ok (N.eqb (N.of_nat (List.length (Wp_weather v4))) 1%N)) (
    chk 615 (let! v5 := deref v1 in let! v6 := deref (List.nth_error (Wp_weather v5) 0%nat) in Ok (WpWeather_beq v6 W_SANDSTORM)) (
    chk 616 (let! v7 := deref v1 in Ok (WpEvent_beq (Wp_event v7) Ev_NONE)) (
    chk 617 (let! v8 := deref v1 in Ok (negb (has_value (wpTm v8)))) (
    step 619 ((Wp_fromString "VCDS" true)) (fun v9 => 
    chk 620 (Ok (has_value v9)) (
    chk 621 (let! v10 := deref v9 in Ok (WpQualifier_beq (Wp_qualifier v10) Q_VICINITY)) (
    chk 622 (let! v11 := deref v9 in Ok (WpDescriptor_beq (Wp_descriptor v11) D_NONE)) (
    chk 623 (let! v12 := deref v9 in Ok (N.eqb (N.of_nat (List.length (Wp_weather v12))) 1%N)) (
    chk 624 (let! v13 := deref v9 in let! v14 := deref (List.nth_error (Wp_weather v13) 0%nat) in Ok (WpWeather_beq v14 W_DUSTSTORM)) (
    chk 625 (let! v15 := deref v9 in Ok (WpEvent_beq (Wp_event v15) Ev_NONE)) (
    chk 626 (let! v16 := deref v9 in Ok (negb (has_value (wpTm v16)))) (
    None)))))))))))))))).

Definition t_WeatherPhenomena_fromString_precipitation_IC : option N :=
    step 638 ((Wp_fromString "IC" false)) (fun v1 => 
    chk 639 (Ok (has_value v1)) (
    chk 640 (let! v2 := deref v1 in Ok (WpQualifier_beq (Wp_qualifier v2) Q_NONE)) (
    chk 641 (let! v3 := deref v1 in Ok (WpDescriptor_beq (Wp_descriptor v3) D_NONE)) (
    chk 642 (let! v4 := deref v1 in Ok (N.eqb (N.of_nat (List.length (Wp_weather v4))) 1%N)) (
    chk 643 (let! v5 := deref v1 in let! v6 := deref (List.nth_error (Wp_weather v5) 0%nat) in Ok (WpWeather_beq v6 W_ICE_CRYSTALS)) (
    chk 644 (let! v7 := deref v1 in Ok (WpEvent_beq (Wp_event v7) Ev_NONE)) (
    chk 645 (let! v8 := deref v1 in Ok (negb (has_value (wpTm v8)))) (
    None)))))))).

Definition t_WeatherPhenomena_fromString_fromString_precipitation_IC_incorrect : option N :=
    chk 649 (let! v1 := (Wp_fromString "ICRA" false) in Ok (negb (has_value v1))) (
    chk 650 (let! v2 := (Wp_fromString "ICBR" false) in Ok (negb (has_value v2))) (
    chk 651 (let! v3 := (Wp_fromString "ICPO" false) in Ok (negb (has_value v3))) (
    chk 652 (let! v4 := (Wp_fromString "+IC" true) in Ok (negb (has_value v4))) (
    chk 653 (let! v5 := (Wp_fromString "-IC" true) in Ok (negb (has_value v5))) (
    chk 654 (let! v6 := (Wp_fromString "REIC" true) in Ok (negb (has_value v6))) (
    None)))))).

Definition t_WeatherPhenomena_fromString_precipitation_DZ : option N :=
    step 664 ((Wp_fromString "DZ" false)) (fun v1 => 
    chk 665 (Ok (has_value v1)) (
    chk 666 (let! v2 := deref v1 in Ok (WpQualifier_beq (Wp_qualifier v2) Q_NONE)) (
    chk 667 (let! v3 := deref v1 in Ok (WpDescriptor_beq (Wp_descriptor v3) D_NONE)) (
    chk 668 (let! v4 := deref v1 in Ok (N.eqb (N.of_nat (List.length (Wp_weather v4))) 1%N)) (
    chk 669 (let! v5 := deref v1 in let! v6 := deref (List.nth_error (Wp_weather v5) 0%nat) in Ok (WpWeather_beq v6 W_DRIZZLE)) (
    chk 670 (let! v7 := deref v1 in Ok (WpEvent_beq (Wp_event v7) Ev_NONE)) (
    chk 671 (let! v8 := deref v1 in Ok (negb (has_value (wpTm v8)))) (
    step 673 ((Wp_fromString "DZ" true)) (fun v9 => 
    chk 674 (Ok (has_value v9)) (
    chk 675 (let! v10 := deref v9 in Ok (WpQualifier_beq (Wp_qualifier v10) Q_MODERATE)) (
    chk 676 (let! v11 := deref v9 in Ok (WpDescriptor_beq (Wp_descriptor v11) D_NONE)) (
    chk 677 (let! v12 := deref v9 in Ok (N.eqb (N.of_nat (List.length (Wp_weather v12))) 1%N)) (
    chk 678 (let! v13 := deref v9 in let! v14 := deref (List.nth_error (Wp_weather v13) 0%nat) in Ok (WpWeather_beq v14 W_DRIZZLE)) (
    chk 679 (let! v15 := deref v9 in Ok (WpEvent_beq (Wp_event v15) Ev_NONE)) (
    chk 680 (let! v16 := deref v9 in Ok (negb (has_value (wpTm v16)))) (
    step 682 ((Wp_fromString "-DZ" true)) (fun v17 => 
    chk 683 (Ok (has_value v17)) (
    chk 684 (let! v18 := deref v17 in Ok (WpQualifier_beq (Wp_qualifier v18) Q_LIGHT)) (
    chk 685 (let! v19 := deref v17 in Ok (WpDescriptor_beq (Wp_descriptor v19) D_NONE)) (
    chk 686 (let! v20 := deref v17 in Ok (N.eqb (N.of_nat (List.length (Wp_weather v20))) 1%N)) (
    chk 687 (let! v21 := deref v17 in let! v22 := deref (List.nth_error (Wp_weather v21) 0%nat) in Ok (WpWeather_beq v22 W_DRIZZLE)) (
    chk 688 (let! v23 := deref v17 in Ok (WpEvent_beq (Wp_event v23) Ev_NONE)) (
    chk 689 (let! v24 := deref v17 in Ok (negb (has_value (wpTm v24)))) (
    step 691 ((Wp_fromString "+DZ" true)) (fun v25 => 
    chk 692 (Ok (has_value v25)) (
    chk 693 (let! v26 := deref v25 in Ok (WpQualifier_beq (Wp_qualifier v26) Q_HEAVY)) (
    chk 694 (let! v27 := deref v25 in Ok (WpDescriptor_beq (Wp_descriptor v27) D_NONE)) (
    chk 695 (let! v28 := deref v25 in Ok (N.eqb (N.of_nat (List.length (Wp_weather v28))) 1%N)) (
    chk 696 (let! v29 := deref v25 in let! v30 := deref (List.nth_error (Wp_weather v29) 0%nat) in Ok (WpWeather_beq v30 W_DRIZZLE)) (
    chk 697 (let! v31 := deref v25 in Ok (WpEvent_beq (Wp_event v31) Ev_NONE)) (
    chk 698 (let! v32 := deref v25 in Ok (negb (has_value (wpTm v32)))) (
    None)))))))))))))))))))))))))))))))).

Definition t_WeatherPhenomena_fromString_precipitation_RA : option N :=
    step 702 ((Wp_fromString "RA" false)) (fun v1 => 
    chk 703 (Ok (has_value v1)) (
    chk 704 (let! v2 := deref v1 in Ok (WpQualifier_beq (Wp_qualifier v2) Q_NONE)) (
    chk 705 (let! v3 := deref v1 in Ok (WpDescriptor_beq (Wp_descriptor v3) D_NONE)) (
    chk 706 (let! v4 := deref v1 in Ok (N.eqb (N.of_nat (List.length (Wp_weather v4))) 1%N)) (
    chk 707 (let! v5 := deref v1 in let! v6 := deref (List.nth_error (Wp_weather v5) 0%nat) in Ok (WpWeather_beq v6 W_RAIN)) (
    chk 708 (let! v7 := deref v1 in Ok (WpEvent_beq (Wp_event v7) Ev_NONE)) (
    chk 709 (let! v8 := deref v1 in Ok (negb (has_value (wpTm v8)))) (
    step 711 ((Wp_fromString "RA" true)) (fun v9 => 
    chk 712 (Ok (has_value v9)) (
    chk 713 (let! v10 := deref v9 in Ok (WpQualifier_beq (Wp_qualifier v10) Q_MODERATE)) (
    chk 714 (let! v11 := deref v9 in Ok (WpDescriptor_beq (Wp_descriptor v11) D_NONE)) (
    chk 715 (let! v12 := deref v9 in Ok (N.eqb (N.of_nat (List.length (Wp_weather v12))) 1%N)) (
    chk 716 (let! v13 := deref v9 in let! v14 := deref (List.nth_error (Wp_weather v13) 0%nat) in Ok (WpWeather_beq v14 W_RAIN)) (
    chk 717 (let! v15 := deref v9 in Ok (WpEvent_beq (Wp_event v15) Ev_NONE)) (
    chk 718 (let! v16 := deref v9 in Ok (negb (has_value (wpTm v16)))) (
    step 720 ((Wp_fromString "-RA" true)) (fun v17 => 
    chk 721 (Ok (has_value v17)) (
    chk 722 (let! v18 := deref v17 in Ok (WpQualifier_beq (Wp_qualifier v18) Q_LIGHT)) (
    chk 723 (let! v19 := deref v17 in Ok (WpDescriptor_beq (Wp_descriptor v19) D_NONE)) (
    chk 724 (let! v20 := deref v17 in Ok (N.eqb (N.of_nat (List.length (Wp_weather v20))) 1%N)) (
    chk 725 (let! v21 := deref v17 in let! v22 := deref (List.nth_error (Wp_weather v21) 0%nat) in Ok (WpWeather_beq v22 W_RAIN)) (
    chk 726 (let! v23 := deref v17 in Ok (WpEvent_beq (Wp_event v23) Ev_NONE)) (
    chk 727 (let! v24 := deref v17 in Ok (negb (has_value (wpTm v24)))) (
    step 729 ((Wp_fromString "+RA" true)) (fun v25 => 
    chk 730 (Ok (has_value v25)) (
    chk 731 (let! v26 := deref v25 in Ok (WpQualifier_beq (Wp_qualifier v26) Q_HEAVY)) (
    chk 732 (let! v27 := deref v25 in Ok (WpDescriptor_beq (Wp_descriptor v27) D_NONE)) (
    chk 733 (let! v28 := deref v25 in Ok (N.eqb (N.of_nat (List.length (Wp_weather v28))) 1%N)) (
    chk 734 (let! v29 := deref v25 in let! v30 := deref (List.nth_error (Wp_weather v29) 0%nat) in Ok (WpWeather_beq v30 W_RAIN)) (
    chk 735 (let! v31 := deref v25 in Ok (WpEvent_beq (Wp_event v31) Ev_NONE)) (
    chk 736 (let! v32 := deref v25 in Ok (negb (has_value (wpTm v32)))) (
    None)))))))))))))))))))))))))))))))).

Definition t_WeatherPhenomena_fromString_precipitation_SN : option N :=
    step 740 ((Wp_fromString "SN" false)) (fun v1 => 
    chk 741 (Ok (has_value v1)) (
    chk 742 (let! v2 := deref v1 in Ok (WpQualifier_beq (Wp_qualifier v2) Q_NONE)) (
    chk 743 (let! v3 := deref v1 in Ok (WpDescriptor_beq (Wp_descriptor v3) D_NONE)) (
    chk 744 (let! v4 := deref v1 in Ok (N.eqb (N.of_nat (List.length (Wp_weather v4))) 1%N)) (
    chk 745 (let! v5 := deref v1 in let! v6 := deref (List.nth_error (Wp_weather v5) 0%nat) in Ok (WpWeather_beq v6 W_SNOW)) (
    chk 746 (let! v7 := deref v1 in Ok (WpEvent_beq (Wp_event v7) Ev_NONE)) (
    chk 747 (let! v8 := deref v1 in Ok (negb (has_value (wpTm v8)))) (
    step 749 ((Wp_fromString "SN" true)) (fun v9 => 
    chk 750 (Ok (has_value v9)) (
    chk 751 (let! v10 := deref v9 in Ok (WpQualifier_beq (Wp_qualifier v10) Q_MODERATE)) (
    chk 752 (let! v11 := deref v9 in Ok (WpDescriptor_beq (Wp_descriptor v11) D_NONE)) (
    chk 753 (let! v12 := deref v9 in Ok (N.eqb (N.of_nat (List.length (Wp_weather v12))) 1%N)) (
    chk 754 (let! v13 := deref v9 in let! v14 := deref (List.nth_error (Wp_weather v13) 0%nat) in Ok (WpWeather_beq v14 W_SNOW)) (
    chk 755 (let! v15 := deref v9 in Ok (WpEvent_beq (Wp_event v15) Ev_NONE)) (
    chk 756 (let! v16 := deref v9 in Ok (negb (has_value (wpTm v16)))) (
    step 758 ((Wp_fromString "-SN" true)) (fun v17 => 
    chk 759 (Ok (has_value v17)) (
    chk 760 (let! v18 := deref v17 in Ok (WpQualifier_beq (Wp_qualifier v18) Q_LIGHT)) (
    chk 761 (let! v19 := deref v17 in Ok (WpDescriptor_beq (Wp_descriptor v19) D_NONE)) (
    chk 762 (let! v20 := deref v17 in Ok (N.eqb (N.of_nat (List.length (Wp_weather v20))) 1%N)) (
    chk 763 (let! v21 := deref v17 in let! v22 := deref (List.nth_error (Wp_weather v21) 0%nat) in Ok (WpWeather_beq v22 W_SNOW)) (
    chk 764 (let! v23 := deref v17 in Ok (WpEvent_beq (Wp_event v23) Ev_NONE)) (
    chk 765 (let! v24 := deref v17 in Ok (negb (has_value (wpTm v24)))) (
    step 767 ((Wp_fromString "+SN" true)) (fun v25 => 
    chk 768 (Ok (has_value v25)) (
    chk 769 (let! v26 := deref v25 in Ok (WpQualifier_beq (Wp_qualifier v26) Q_HEAVY)) (
    chk 770 (let! v27 := deref v25 in Ok (WpDescriptor_beq (Wp_descriptor v27) D_NONE)) (
    chk 771 (let! v28 := deref v25 in Ok (N.eqb (N.of_nat (List.length (Wp_weather v28))) 1%N)) (
    chk 772 (let! v29 := deref v25 in let! v30 := deref (List.nth_error (Wp_weather v29) 0%nat) in Ok (WpWeather_beq v30 W_SNOW)) (
    chk 773 (let! v31 := deref v25 in Ok (WpEvent_beq (Wp_event v31) Ev_NONE)) (
    chk 774 (let! v32 := deref v25 in Ok (negb (has_value (wpTm v32)))) (
    None)))))))))))))))))))))))))))))))).

Definition t_WeatherPhenomena_fromString_precipitation_SG : option N :=
    step 778 ((Wp_fromString "SG" false)) (fun v1 => 
    chk 779 (Ok (has_value v1)) (
    chk 780 (let! v2 := deref v1 in Ok (WpQualifier_beq (Wp_qualifier v2) Q_NONE)) (
    chk 781 (let! v3 := deref v1 in Ok (WpDescriptor_beq (Wp_descriptor v3) D_NONE)) (
    chk 782 (let! v4 := deref v1 in Ok (N.eqb (N.of_nat (List.length (Wp_weather v4))) 1%N)) (
    chk 783 (let! v5 := deref v1 in let! v6 := deref (List.nth_error (Wp_weather v5) 0%nat) in Ok (WpWeather_beq v6 W_SNOW_GRAINS)) (
    chk 784 (let! v7 := deref v1 in Ok (WpEvent_beq (Wp_event v7) Ev_NONE)) (
    chk 785 (let! v8 := deref v1 in Ok (negb (has_value (wpTm v8)))) (
    step 787 ((Wp_fromString "SG" true)) (fun v9 => 
    chk 788 (Ok (has_value v9)) (
    chk 789 (let! v10 := deref v9 in Ok (WpQualifier_beq (Wp_qualifier v10) Q_MODERATE)) (
    chk 790 (let! v11 := deref v9 in Ok (WpDescriptor_beq (Wp_descriptor v11) D_NONE)) (
    chk 791 (let! v12 := deref v9 in Ok (N.eqb (N.of_nat (List.length (Wp_weather v12))) 1%N)) (
    chk 792 (let! v13 := deref v9 in let! v14 := deref (List.nth_error (Wp_weather v13) 0%nat) in Ok (WpWeather_beq v14 W_SNOW_GRAINS)) (
    chk 793 (let! v15 := deref v9 in Ok (WpEvent_beq (Wp_event v15) Ev_NONE)) (
    chk 794 (let! v16 := deref v9 in Ok (negb (has_value (wpTm v16)))) (
    step 796 ((Wp_fromString "-SG" true)) (fun v17 => 
    chk 797 (Ok (has_value v17)) (
    chk 798 (let! v18 := deref v17 in Ok (WpQualifier_beq (Wp_qualifier v18) Q_LIGHT)) (
    chk 799 (let! v19 := deref v17 in Ok (WpDescriptor_beq (Wp_descriptor v19) D_NONE)) (
    chk 800 (let! v20 := deref v17 in Ok (N.eqb (N.of_nat (List.length (Wp_weather v20))) 1%N)) (
    chk 801 (let! v21 := deref v17 in let! v22 := deref (List.nth_error (Wp_weather v21) 0%nat) in Ok (WpWeather_beq v22 W_SNOW_GRAINS)) (
    chk 802 (let! v23 := deref v17 in Ok (WpEvent_beq (Wp_event v23) Ev_NONE)) (
    chk 803 (let! v24 := deref v17 in Ok (negb (has_value (wpTm v24)))) (
    step 805 ((Wp_fromString "+SG" true)) (fun v25 => 
    chk 806 (Ok (has_value v25)) (
    chk 807 (let! v26 := deref v25 in Ok (WpQualifier_beq (Wp_qualifier v26) Q_HEAVY)) (
    chk 808 (let! v27 := deref v25 in Ok (WpDescriptor_beq (Wp_descriptor v27) D_NONE)) (
    chk 809 (let! v28 := deref v25 in Ok (N.eqb (N.of_nat (List.length (Wp_weather v28))) 1%N)) (
    chk 810 (let! v29 := deref v25 in let! v30 := deref (List.nth_error (Wp_weather v29) 0%nat) in Ok (WpWeather_beq v30 W_SNOW_GRAINS)) (
    chk 811 (let! v31 := deref v25 in Ok (WpEvent_beq (Wp_event v31) Ev_NONE)) (
    chk 812 (let! v32 := deref v25 in Ok (negb (has_value (wpTm v32)))) (
    None)))))))))))))))))))))))))))))))).

Definition t_WeatherPhenomena_fromString_precipitation_PL : option N :=
    step 816 ((Wp_fromString "PL" false)) (fun v1 => 
    chk 817 (Ok (has_value v1)) (
    chk 818 (let! v2 := deref v1 in Ok (WpQualifier_beq (Wp_qualifier v2) Q_NONE)) (
    chk 819 (let! v3 := deref v1 in Ok (WpDescriptor_beq (Wp_descriptor v3) D_NONE)) (
    chk 820 (let! v4 := deref v1 in Ok (N.eqb (N.of_nat (List.length (Wp_weather v4))) 1%N)) (
    chk 821 (let! v5 := deref v1 in let! v6 := deref (List.nth_error (Wp_weather v5) 0%nat) in Ok (WpWeather_beq v6 W_ICE_PELLETS)) (
    chk 822 (let! v7 := deref v1 in Ok (WpEvent_beq (Wp_event v7) Ev_NONE)) (
    chk 823 (let! v8 := deref v1 in Ok (negb (has_value (wpTm v8)))) (
    step 825 ((Wp_fromString "PL" true)) (fun v9 => 
    chk 826 (Ok (has_value v9)) (
    chk 827 (let! v10 := deref v9 in Ok (WpQualifier_beq (Wp_qualifier v10) Q_MODERATE)) (
    chk 828 (let! v11 := deref v9 in Ok (WpDescriptor_beq (Wp_descriptor v11) D_NONE)) (
    chk 829 (let! v12 := deref v9 in Ok (N.eqb (N.of_nat (List.length (Wp_weather v12))) 1%N)) (
    chk 830 (let! v13 := deref v9 in let! v14 := deref (List.nth_error (Wp_weather v13) 0%nat) in Ok (WpWeather_beq v14 W_ICE_PELLETS)) (
    chk 831 (let! v15 := deref v9 in Ok (WpEvent_beq (Wp_event v15) Ev_NONE)) (
    chk 832 (let! v16 := deref v9 in Ok (negb (has_value (wpTm v16)))) (
    step 834 ((Wp_fromString "-PL" true)) (fun v17 => 
    chk 835 (Ok (has_value v17)) (
    chk 836 (let! v18 := deref v17 in Ok (WpQualifier_beq (Wp_qualifier v18) Q_LIGHT)) (
    chk 837 (let! v19 := deref v17 in Ok (WpDescriptor_beq (Wp_descriptor v19) D_NONE)) (
    chk 838 (let! v20 := deref v17 in Ok (N.eqb (N.of_nat (List.length (Wp_weather v20))) 1%N)) (
    chk 839 (let! v21 := deref v17 in let! v22 := deref (List.nth_error (Wp_weather v21) 0%nat) in Ok (WpWeather_beq v22 W_ICE_PELLETS)) (
    chk 840 (let! v23 := deref v17 in Ok (WpEvent_beq (Wp_event v23) Ev_NONE)) (
    chk 841 (let! v24 := deref v17 in Ok (negb (has_value (wpTm v24)))) (
    step 843 ((Wp_fromString "+PL" true)) (fun v25 => 
    chk 844 (Ok (has_value v25)) (
    chk 845 (let! v26 := deref v25 in Ok (WpQualifier_beq (Wp_qualifier v26) Q_HEAVY)) (
    chk 846 (let! v27 := deref v25 in Ok (WpDescriptor_beq (Wp_descriptor v27) D_NONE)) (
    chk 847 (let! v28 := deref v25 in Ok (N.eqb (N.of_nat (List.length (Wp_weather v28))) 1%N)) (
    chk 848 (let! v29 := deref v25 in let! v30 := deref (List.nth_error (Wp_weather v29) 0%nat) in Ok (WpWeather_beq v30 W_ICE_PELLETS)) (
    chk 849 (let! v31 := deref v25 in Ok (WpEvent_beq (Wp_event v31) Ev_NONE)) (
    chk 850 (let! v32 := deref v25 in Ok (negb (has_value (wpTm v32)))) (
    None)))))))))))))))))))))))))))))))).

Definition t_WeatherPhenomena_fromString_precipitation_GR : option N :=
    step 854 ((Wp_fromString "GR" false)) (fun v1 => 
    chk 855 (Ok (has_value v1)) (
    chk 856 (let! v2 := deref v1 in Ok (WpQualifier_beq (Wp_qualifier v2) Q_NONE)) (
    chk 857 (let! v3 := deref v1 in Ok (WpDescriptor_beq (Wp_descriptor v3) D_NONE)) (
    chk 858 (let! v4 := deref v1 in Ok (N.eqb (N.of_nat (List.length (Wp_weather v4))) 1%N)) (
    chk 859 (let! v5 := deref v1 in let! v6 := deref (List.nth_error (Wp_weather v5) 0%nat) in Ok (WpWeather_beq v6 W_HAIL)) (
    chk 860 (let! v7 := deref v1 in Ok (WpEvent_beq (Wp_event v7) Ev_NONE)) (
    chk 861 (let! v8 := deref v1 in Ok (negb (has_value (wpTm v8)))) (
    step 863 ((Wp_fromString "GR" true)) (fun v9 => 
    chk 864 (Ok (has_value v9)) (
    chk 865 (let! v10 := deref v9 in Ok (WpQualifier_beq (Wp_qualifier v10) Q_MODERATE)) (
    chk 866 (let! v11 := deref v9 in Ok (WpDescriptor_beq (Wp_descriptor v11) D_NONE)) (
    chk 867 (let! v12 := deref v9 in Ok (N.eqb (N.of_nat (List.length (Wp_weather v12))) 1%N)) (
    chk 868 (let! v13 := deref v9 in let! v14 := deref (List.nth_error (Wp_weather v13) 0%nat) in Ok (WpWeather_beq v14 W_HAIL)) (
    chk 869 (let! v15 := deref v9 in Ok (WpEvent_beq (Wp_event v15) Ev_NONE)) (
    chk 870 (let! v16 := deref v9 in Ok (negb (has_value (wpTm v16)))) (
    step 872 ((Wp_fromString "-GR" true)) (fun v17 => 
    chk 873 (Ok (has_value v17)) (
    chk 874 (let! v18 := deref v17 in Ok (WpQualifier_beq (Wp_qualifier v18) Q_LIGHT)) (
    chk 875 (let! v19 := deref v17 in Ok (WpDescriptor_beq (Wp_descriptor v19) D_NONE)) (
    chk 876 (let! v20 := deref v17 in Ok (N.eqb (N.of_nat (List.length (Wp_weather v20))) 1%N)) (
    chk 877 (let! v21 := deref v17 in let! v22 := deref (List.nth_error (Wp_weather v21) 0%nat) in Ok (WpWeather_beq v22 W_HAIL)) (
    chk 878 (let! v23 := deref v17 in Ok (WpEvent_beq (Wp_event v23) Ev_NONE)) (
    chk 879 (let! v24 := deref v17 in Ok (negb (has_value (wpTm v24)))) (
    step 881 ((Wp_fromString "+GR" true)) (fun v25 => 
    chk 882 (Ok (has_value v25)) (
    chk 883 (let! v26 := deref v25 in Ok (WpQualifier_beq (Wp_qualifier v26) Q_HEAVY)) (
    chk 884 (let! v27 := deref v25 in Ok (WpDescriptor_beq (Wp_descriptor v27) D_NONE)) (
    chk 885 (let! v28 := deref v25 in Ok (N.eqb (N.of_nat (List.length (Wp_weather v28))) 1%N)) (
    chk 886 (let! v29 := deref v25 in let! v30 := deref (List.nth_error (Wp_weather v29) 0%nat) in Ok (WpWeather_beq v30 W_HAIL)) (
    chk 887 (let! v31 := deref v25 in Ok (WpEvent_beq (Wp_event v31) Ev_NONE)) (
    chk 888 (let! v32 := deref v25 in Ok (negb (has_value (wpTm v32)))) (
    None)))))))))))))))))))))))))))))))).

Definition t_WeatherPhenomena_fromString_precipitation_GS : option N :=
    step 892 ((Wp_fromString "GS" false)) (fun v1 => 
    chk 893 (Ok (has_value v1)) (
    chk 894 (let! v2 := deref v1 in Ok (WpQualifier_beq (Wp_qualifier v2) Q_NONE)) (
    chk 895 (let! v3 := deref v1 in Ok (WpDescriptor_beq (Wp_descriptor v3) D_NONE)) (
    chk 896 (let! v4 := deref v1 in Ok (N.eqb (N.of_nat (List.length (Wp_weather v4))) 1%N)) (
    chk 897 (let! v5 := deref v1 in let! v6 := deref (List.nth_error (Wp_weather v5) 0%nat) in Ok (WpWeather_beq v6 W_SMALL_HAIL)) (
    chk 898 (let! v7 := deref v1 in Ok (WpEvent_beq (Wp_event v7) Ev_NONE)) (
    chk 899 (let! v8 := deref v1 in Ok (negb (has_value (wpTm v8)))) (
    step 901 ((Wp_fromString "GS" true)) (fun v9 => 
    chk 902 (Ok (has_value v9)) (
    chk 903 (let! v10 := deref v9 in Ok (WpQualifier_beq (Wp_qualifier v10) Q_MODERATE)) (
    chk 904 (let! v11 := deref v9 in Ok (WpDescriptor_beq (Wp_descriptor v11) D_NONE)) (
    chk 905 (let! v12 := deref v9 in Ok (N.eqb (N.of_nat (List.length (Wp_weather v12))) 1%N)) (
    chk 906 (let! v13 := deref v9 in let! v14 := deref (List.nth_error (Wp_weather v13) 0%nat) in Ok (WpWeather_beq v14 W_SMALL_HAIL)) (
    chk 907 (let! v15 := deref v9 in Ok (WpEvent_beq (Wp_event v15) Ev_NONE)) (
    chk 908 (let! v16 := deref v9 in Ok (negb (has_value (wpTm v16)))) (
    step 910 ((Wp_fromString "-GS" true)) (fun v17 => 
    chk 911 (Ok (has_value v17)) (
    chk 912 (let! v18 := deref v17 in Ok (WpQualifier_beq (Wp_qualifier v18) Q_LIGHT)) (
    chk 913 (let! v19 := deref v17 in Ok (WpDescriptor_beq (Wp_descriptor v19) D_NONE)) (
    chk 914 (let! v20 := deref v17 in Ok (N.eqb (N.of_nat (List.length (Wp_weather v20))) 1%N)) (
    chk 915 (let! v21 := deref v17 in let! v22 := deref (List.nth_error (Wp_weather v21) 0%nat) in Ok (WpWeather_beq v22 W_SMALL_HAIL)) (
    chk 916 (let! v23 := deref v17 in Ok (WpEvent_beq (Wp_event v23) Ev_NONE)) (
    chk 917 (let! v24 := deref v17 in Ok (negb (has_value (wpTm v24)))) (
    step 919 ((Wp_fromString "+GS" true)) (fun v25 => 
    chk 920 (Ok (has_value v25)) (
    chk 921 (let! v26 := deref v25 in Ok (WpQualifier_beq (Wp_qualifier v26) Q_HEAVY)) (
    chk 922 (let! v27 := deref v25 in Ok (WpDescriptor_beq (Wp_descriptor v27) D_NONE)) (
    chk 923 (let! v28 := deref v25 in Ok (N.eqb (N.of_nat (List.length (Wp_weather v28))) 1%N)) (
    chk 924 (let! v29 := deref v25 in let! v30 := deref (List.nth_error (Wp_weather v29) 0%nat) in Ok (WpWeather_beq v30 W_SMALL_HAIL)) (
    chk 925 (let! v31 := deref v25 in Ok (WpEvent_beq (Wp_event v31) Ev_NONE)) (
    chk 926 (let! v32 := deref v25 in Ok (negb (has_value (wpTm v32)))) (
    None)))))))))))))))))))))))))))))))).

Definition t_WeatherPhenomena_fromString_precipitation_UP : option N :=
    step 930 ((Wp_fromString "UP" false)) (fun v1 => 
    chk 931 (Ok (has_value v1)) (
    chk 932 (let! v2 := deref v1 in Ok (WpQualifier_beq (Wp_qualifier v2) Q_NONE)) (
    chk 933 (let! v3 := deref v1 in Ok (WpDescriptor_beq (Wp_descriptor v3) D_NONE)) (
    chk 934 (let! v4 := deref v1 in Ok (N.eqb (N.of_nat (List.length (Wp_weather v4))) 1%N)) (
    chk 935 (let! v5 := deref v1 in let! v6 := deref (List.nth_error (Wp_weather v5) 0%nat) in Ok (WpWeather_beq v6 W_UNDETERMINED)) (
    chk 936 (let! v7 := deref v1 in Ok (WpEvent_beq (Wp_event v7) Ev_NONE)) (
    chk 937 (let! v8 := deref v1 in Ok (negb (has_value (wpTm v8)))) (
    step 939 ((Wp_fromString "UP" true)) (fun v9 => 
    chk 940 (Ok (has_value v9)) (
    chk 941 (let! v10 := deref v9 in Ok (WpQualifier_beq (Wp_qualifier v10) Q_MODERATE)) (
    chk 942 (let! v11 := deref v9 in Ok (WpDescriptor_beq (Wp_descriptor v11) D_NONE)) (
    chk 943 (let! v12 := deref v9 in Ok (N.eqb (N.of_nat (List.length (Wp_weather v12))) 1%N)) (
    chk 944 (let! v13 := deref v9 in let! v14 := deref (List.nth_error (Wp_weather v13) 0%nat) in Ok (WpWeather_beq v14 W_UNDETERMINED)) (
    chk 945 (let! v15 := deref v9 in Ok (WpEvent_beq (Wp_event v15) Ev_NONE)) (
    chk 946 (let! v16 := deref v9 in Ok (negb (has_value (wpTm v16)))) (
    step 948 ((Wp_fromString "-UP" true)) (fun v17 => 
    chk 949 (Ok (has_value v17)) (
    chk 950 (let! v18 := deref v17 in Ok (WpQualifier_beq (Wp_qualifier v18) Q_LIGHT)) (
    chk 951 (let! v19 := deref v17 in Ok (WpDescriptor_beq (Wp_descriptor v19) D_NONE)) (
    chk 952 (let! v20 := deref v17 in Ok (N.eqb (N.of_nat (List.length (Wp_weather v20))) 1%N)) (
    chk 953 (let! v21 := deref v17 in let! v22 := deref (List.nth_error (Wp_weather v21) 0%nat) in Ok (WpWeather_beq v22 W_UNDETERMINED)) (
    chk 954 (let! v23 := deref v17 in Ok (WpEvent_beq (Wp_event v23) Ev_NONE)) (
    chk 955 (let! v24 := deref v17 in Ok (negb (has_value (wpTm v24)))) (
    step 957 ((Wp_fromString "+UP" true)) (fun v25 => 
    chk 958 (Ok (has_value v25)) (
    chk 959 (let! v26 := deref v25 in Ok (WpQualifier_beq (Wp_qualifier v26) Q_HEAVY)) (
    chk 960 (let! v27 := deref v25 in Ok (WpDescriptor_beq (Wp_descriptor v27) D_NONE)) (
    chk 961 (let! v28 := deref v25 in Ok (N.eqb (N.of_nat (List.length (Wp_weather v28))) 1%N)) (
    chk 962 (let! v29 := deref v25 in let! v30 := deref (List.nth_error (Wp_weather v29) 0%nat) in Ok (WpWeather_beq v30 W_UNDETERMINED)) (
    chk 963 (let! v31 := deref v25 in Ok (WpEvent_beq (Wp_event v31) Ev_NONE)) (
    chk 964 (let! v32 := deref v25 in Ok (negb (has_value (wpTm v32)))) (
    None)))))))))))))))))))))))))))))))).

Definition t_WeatherPhenomena_fromString_precipitation_mixed : option N :=
    step 975 ((Wp_fromString "DZSG" false)) (fun v1 => 
    chk 976 (Ok (has_value v1)) (
    chk 977 (let! v2 := deref v1 in Ok (WpQualifier_beq (Wp_qualifier v2) Q_NONE)) (
    chk 978 (let! v3 := deref v1 in Ok (WpDescriptor_beq (Wp_descriptor v3) D_NONE)) (
    chk 979 (let! v4 := deref v1 in Ok (N.eqb (N.of_nat (List.length (Wp_weather v4))) 2%N)) (
    chk 980 (let! v5 := deref v1 in let! v6 := deref (List.nth_error (Wp_weather v5) 0%nat) in Ok (WpWeather_beq v6 W_DRIZZLE)) (
    chk 981 (let! v7 := deref v1 in let! v8 := deref (List.nth_error (Wp_weather v7) 1%nat) in Ok (WpWeather_beq v8 W_SNOW_GRAINS)) (
    chk 982 (let! v9 := deref v1 in Ok (WpEvent_beq (Wp_event v9) Ev_NONE)) (
    chk 983 (let! v10 := deref v1 in Ok (negb (has_value (wpTm v10)))) (
    step 985 ((Wp_fromString "RAPL" false)) (fun v11 => 
    chk 986 (Ok (has_value v11)) (
    chk 987 (let! v12 := deref v11 in Ok (WpQualifier_beq (Wp_qualifier v12) Q_NONE)) (
    chk 988 (let! v13 := deref v11 in Ok (WpDescriptor_beq (Wp_descriptor v13) D_NONE)) (
    chk 989 (let! v14 := deref v11 in Ok (N.eqb (N.of_nat (List.length (Wp_weather v14))) 2%N)) (
    chk 990 (let! v15 := deref v11 in let! v16 := deref (List.nth_error (Wp_weather v15) 0%nat) in Ok (WpWeather_beq v16 W_RAIN)) (
    chk 991 (let! v17 := deref v11 in let! v18 := deref (List.nth_error (Wp_weather v17) 1%nat) in Ok (WpWeather_beq v18 W_ICE_PELLETS)) (
    chk 992 (let! v19 := deref v11 in Ok (WpEvent_beq (Wp_event v19) Ev_NONE)) (
    chk 993 (let! v20 := deref v11 in Ok (negb (has_value (wpTm v20)))) (
    step 995 ((Wp_fromString "SNGS" false)) (fun v21 => 
    chk 996 (Ok (has_value v21)) (
    chk 997 (let! v22 := deref v21 in Ok (WpQualifier_beq (Wp_qualifier v22) Q_NONE)) (
    chk 998 (let! v23 := deref v21 in Ok (WpDescriptor_beq (Wp_descriptor v23) D_NONE)) (
    chk 999 (let! v24 := deref v21 in Ok (N.eqb (N.of_nat (List.length (Wp_weather v24))) 2%N)) (
    chk 1000 (let! v25 := deref v21 in let! v26 := deref (List.nth_error (Wp_weather v25) 0%nat) in Ok (WpWeather_beq v26 W_SNOW)) (
    chk 1001 (let! v27 := deref v21 in let! v28 := deref (List.nth_error (Wp_weather v27) 1%nat) in Ok (WpWeather_beq v28 W_SMALL_HAIL)) (
    chk 1002 (let! v29 := deref v21 in Ok (WpEvent_beq (Wp_event v29) Ev_NONE)) (
    chk 1003 (let! v30 := deref v21 in Ok (negb (has_value (wpTm v30)))) (
    step 1005 ((Wp_fromString "RAGR" false)) (fun v31 => 
    chk 1006 (Ok (has_value v31)) (
    chk 1007 (let! v32 := deref v31 in Ok (WpQualifier_beq (Wp_qualifier v32) Q_NONE)) (
    chk 1008 (let! v33 := deref v31 in Ok (WpDescriptor_beq (Wp_descriptor v33) D_NONE)) (
    chk 1009 (let! v34 := deref v31 in Ok (N.eqb (N.of_nat (List.length (Wp_weather v34))) 2%N)) (
    chk 1010 (let! v35 := deref v31 in let! v36 := deref (List.nth_error (Wp_weather v35) 0%nat) in Ok (WpWeather_beq v36 W_RAIN)) (
    chk 1011 (let! v37 := deref v31 in let! v38 := deref (List.nth_error (Wp_weather v37) 1%nat) in Ok (WpWeather_beq v38 W_HAIL)) (
    chk 1012 (let! v39 := deref v31 in Ok (WpEvent_beq (Wp_event v39) Ev_NONE)) (
    chk 1013 (let! v40 := deref v31 in Ok (negb (has_value (wpTm v40)))) (
    step 1015 ((Wp_fromString "RAUP" false)) (fun v41 => 
    chk 1016 (Ok (has_value v41)) (
    chk 1017 (let! v42 := deref v41 in Ok (WpQualifier_beq (Wp_qualifier v42) Q_NONE)) (
    chk 1018 (let! v43 := deref v41 in Ok (WpDescriptor_beq (Wp_descriptor v43) D_NONE)) (
    chk 1019 (let! v44 := deref v41 in Ok (N.eqb (N.of_nat (List.length (Wp_weather v44))) 2%N)) (
    chk 1020 (let! v45 := deref v41 in let! v46 := deref (List.nth_error (Wp_weather v45) 0%nat) in Ok (WpWeather_beq v46 W_RAIN)) (
    chk 1021 (let! v47 := deref v41 in let! v48 := deref (List.nth_error (Wp_weather v47) 1%nat) in Ok (WpWeather_beq v48 W_UNDETERMINED)) (
    chk 1022 (let! v49 := deref v41 in Ok (WpEvent_beq (Wp_event v49) Ev_NONE)) (
    chk 1023 (let! v50 := deref v41 in Ok (negb (has_value (wpTm v50)))) (
    step 1025 ((Wp_fromString "RASNGS" false)) (fun v51 => 
    chk 1026 (Ok (has_value v51)) (
    chk 1027 (let! v52 := deref v51 in Ok (WpQualifier_beq (Wp_qualifier v52) Q_NONE)) (
    chk 1028 (let! v53 := deref v51 in Ok (WpDescriptor_beq (Wp_descriptor v53) D_NONE)) (
    chk 1029 (let! v54 := deref v51 in Ok (N.eqb (N.of_nat (List.length (Wp_weather v54))) 3%N)) (
    chk 1030 (let! v55 := deref v51 in let! v56 := deref (List.nth_error (Wp_weather v55) 0%nat) in Ok (WpWeather_beq v56 W_RAIN)) (
    chk 1031 (let! v57 := deref v51 in let! v58 := deref (List.nth_error (Wp_weather v57) 1%nat) in Ok (WpWeather_beq v58 W_SNOW)) (
    chk 1032 (let! v59 := deref v51 in let! v60 := deref (List.nth_error (Wp_weather v59) 2%nat) in Ok (WpWeather_beq v60 W_SMALL_HAIL)) (
    chk 1033 (let! v61 := deref v51 in Ok (WpEvent_beq (Wp_event v61) Ev_NONE)) (
    chk 1034 (let! v62 := deref v51 in Ok (negb (has_value (wpTm v62)))) (
    None))))))))))))))))))))))))))))))))))))))))))))))))))))))).

Definition t_WeatherPhenomena_fromString_precipitation_mixed_too_long : option N :=
    chk 1038 (let! v1 := (Wp_fromString "DZRASNPL" false) in Ok (negb (has_value v1))) (
    None).

Definition t_WeatherPhenomena_fromString_precipitation_mixed_duplicate : option N :=
    chk 1042 (let! v1 := (Wp_fromString "RASNSN" false) in Ok (negb (has_value v1))) (
    chk 1043 (let! v2 := (Wp_fromString "RARASN" false) in Ok (negb (has_value v2))) (
    chk 1044 (let! v3 := (Wp_fromString "SNRASN" false) in Ok (negb (has_value v3))) (
    chk 1045 (let! v4 := (Wp_fromString "RARA" false) in Ok (negb (has_value v4))) (
    None)))).

Definition t_WeatherPhenomena_fromString_precipitation_mixed_incorrect : option N :=
    chk 1049 (let! v1 := (Wp_fromString "RASNZZ" false) in Ok (negb (has_value v1))) (
    chk 1051 (let! v2 := (Wp_fromString "RASNSS" false) in Ok (negb (has_value v2))) (
    chk 1052 (let! v3 := (Wp_fromString "RASNDS" false) in Ok (negb (has_value v3))) (
    chk 1053 (let! v4 := (Wp_fromString "RASNBR" false) in Ok (negb (has_value v4))) (
    chk 1054 (let! v5 := (Wp_fromString "RASNFG" false) in Ok (negb (has_value v5))) (
    chk 1055 (let! v6 := (Wp_fromString "RASNFU" false) in Ok (negb (has_value v6))) (
    chk 1056 (let! v7 := (Wp_fromString "RASNHZ" false) in Ok (negb (has_value v7))) (
    chk 1057 (let! v8 := (Wp_fromString "RASNVA" false) in Ok (negb (has_value v8))) (
    chk 1058 (let! v9 := (Wp_fromString "RASNIC" false) in Ok (negb (has_value v9))) (
    chk 1059 (let! v10 := (Wp_fromString "RASNDU" false) in Ok (negb (has_value v10))) (
    chk 1060 (let! v11 := (Wp_fromString "RASNDU" false) in Ok (negb (has_value v11))) (
    chk 1061 (let! v12 := (Wp_fromString "RASNSA" false) in Ok (negb (has_value v12))) (
    chk 1062 (let! v13 := (Wp_fromString "RASNPY" false) in Ok (negb (has_value v13))) (
    chk 1063 (let! v14 := (Wp_fromString "RASNPO" false) in Ok (negb (has_value v14))) (
    chk 1064 (let! v15 := (Wp_fromString "RASNSQ" false) in Ok (negb (has_value v15))) (
    chk 1065 (let! v16 := (Wp_fromString "RASNFC" false) in Ok (negb (has_value v16))) (
    None)))))))))))))))).

Definition t_WeatherPhenomena_fromString_precipitation_mixed_incorrect_descriptor : option N :=
    chk 1069 (let! v1 := (Wp_fromString "MIRAGR" false) in Ok (negb (has_value v1))) (
    chk 1070 (let! v2 := (Wp_fromString "PRRAGR" false) in Ok (negb (has_value v2))) (
    chk 1071 (let! v3 := (Wp_fromString "BCRAGR" false) in Ok (negb (has_value v3))) (
    chk 1072 (let! v4 := (Wp_fromString "DRRAGR" false) in Ok (negb (has_value v4))) (
    chk 1073 (let! v5 := (Wp_fromString "BLRAGR" false) in Ok (negb (has_value v5))) (
    None))))).

Definition t_WeatherPhenomena_fromString_precipitation_mixed_qualifier_moderate : option N :=
    step 1083 ((Wp_fromString "DZSG" true)) (fun v1 => 
    chk 1084 (Ok (has_value v1)) (
    chk 1085 (let! v2 := deref v1 in Ok (WpQualifier_beq (Wp_qualifier v2) Q_MODERATE)) (
    chk 1086 (let! v3 := deref v1 in Ok (WpDescriptor_beq (Wp_descriptor v3) D_NONE)) (
    chk 1087 (let! v4 := deref v1 in Ok (N.eqb (N.of_nat (List.length (Wp_weather v4))) 2%N)) (
    chk 1088 (let! v5 := deref v1 in let! v6 := deref (List.nth_error (Wp_weather v5) 0%nat) in Ok (WpWeather_beq v6 W_DRIZZLE)) (
    chk 1089 (let! v7 := deref v1 in let! v8 := deref (List.nth_error (Wp_weather v7) 1%nat) in Ok (WpWeather_beq v8 W_SNOW_GRAINS)) (
    chk 1090 (let! v9 := deref v1 in Ok (WpEvent_beq (Wp_event v9) Ev_NONE)) (
    chk 1091 (let! v10 := deref v1 in Ok (negb (has_value (wpTm v10)))) (
    step 1093 ((Wp_fromString "RAPL" true)) (fun v11 => 
    chk 1094 (Ok (has_value v11)) (
    chk 1095 (let! v12 := deref v11 in Ok (WpQualifier_beq (Wp_qualifier v12) Q_MODERATE)) (
    chk 1096 (let! v13 := deref v11 in Ok (WpDescriptor_beq (Wp_descriptor v13) D_NONE)) (
    chk 1097 (let! v14 := deref v11 in Ok (N.eqb (N.of_nat (List.length (Wp_weather v14))) 2%N)) (
    chk 1098 (let! v15 := deref v11 in let! v16 := deref (List.nth_error (Wp_weather v15) 0%nat) in Ok (WpWeather_beq v16 W_RAIN)) (
    chk 1099 (let! v17 := deref v11 in let! v18 := deref (List.nth_error (Wp_weather v17) 1%nat) in Ok (WpWeather_beq v18 W_ICE_PELLETS)) (
    chk 1100 (let! v19 := deref v11 in Ok (WpEvent_beq (Wp_event v19) Ev_NONE)) (
    chk 1101 (let! v20 := deref v11 in Ok (negb (has_value (wpTm v20)))) (
    step 1103 ((Wp_fromString "SNGS" true)) (fun v21 => 
    chk 1104 (Ok (has_value v21)) (
    chk 1105 (let! v22 := deref v21 in Ok (WpQualifier_beq (Wp_qualifier v22) Q_MODERATE)) (
    chk 1106 (let! v23 := deref v21 in Ok (WpDescriptor_beq (Wp_descriptor v23) D_NONE)) (
    chk 1107 (let! v24 := deref v21 in Ok (N.eqb (N.of_nat (List.length (Wp_weather v24))) 2%N)) (
    chk 1108 (let! v25 := deref v21 in let! v26 := deref (List.nth_error (Wp_weather v25) 0%nat) in Ok (WpWeather_beq v26 W_SNOW)) (
    chk 1109 (let! v27 := deref v21 in let! v28 := deref (List.nth_error (Wp_weather v27) 1%nat) in Ok (WpWeather_beq v28 W_SMALL_HAIL)) (
    chk 1110 (let! v29 := deref v21 in Ok (WpEvent_beq (Wp_event v29) Ev_NONE)) (
    chk 1111 (let! v30 := deref v21 in Ok (negb (has_value (wpTm v30)))) (
    step 1113 ((Wp_fromString "RAGR" true)) (fun v31 => 
    chk 1114 (Ok (has_value v31)) (
    chk 1115 (let! v32 := deref v31 in Ok (WpQualifier_beq (Wp_qualifier v32) Q_MODERATE)) (
    chk 1116 (let! v33 := deref v31 in Ok (WpDescriptor_beq (Wp_descriptor v33) D_NONE)) (
    chk 1117 (let! v34 := deref v31 in Ok (N.eqb (N.of_nat (List.length (Wp_weather v34))) 2%N)) (
    chk 1118 (let! v35 := deref v31 in let! v36 := deref (List.nth_error (Wp_weather v35) 0%nat) in Ok (WpWeather_beq v36 W_RAIN)) (
    chk 1119 (let! v37 := deref v31 in let! v38 := deref (List.nth_error (Wp_weather v37) 1%nat) in Ok (WpWeather_beq v38 W_HAIL)) (
    chk 1120 (let! v39 := deref v31 in Ok (WpEvent_beq (Wp_event v39) Ev_NONE)) (
    chk 1121 (let! v40 := deref v31 in Ok (negb (has_value (wpTm v40)))) (
    step 1123 ((Wp_fromString "RAUP" true)) (fun v41 => 
    chk 1124 (Ok (has_value v41)) (
    chk 1125 (let! v42 := deref v41 in Ok (WpQualifier_beq (Wp_qualifier v42) Q_MODERATE)) (
    chk 1126 (let! v43 := deref v41 in Ok (WpDescriptor_beq (Wp_descriptor v43) D_NONE)) (
    chk 1127 (let! v44 := deref v41 in Ok (N.eqb (N.of_nat (List.length (Wp_weather v44))) 2%N)) (
    chk 1128 (let! v45 := deref v41 in let! v46 := deref (List.nth_error (Wp_weather v45) 0%nat) in Ok (WpWeather_beq v46 W_RAIN)) (
    chk 1129 (let! v47 := deref v41 in let! v48 := deref (List.nth_error (Wp_weather v47) 1%nat) in Ok (WpWeather_beq v48 W_UNDETERMINED)) (
    chk 1130 (let! v49 := deref v41 in Ok (WpEvent_beq (Wp_event v49) Ev_NONE)) (
    chk 1131 (let! v50 := deref v41 in Ok (negb (has_value (wpTm v50)))) (
    step 1133 ((Wp_fromString "RASNGS" true)) (fun v51 => 
    chk 1134 (Ok (has_value v51)) (
    chk 1135 (let! v52 := deref v51 in Ok (WpQualifier_beq (Wp_qualifier v52) Q_MODERATE)) (
    chk 1136 (let! v53 := deref v51 in Ok (WpDescriptor_beq (Wp_descriptor v53) D_NONE)) (
    chk 1137 (let! v54 := deref v51 in Ok (N.eqb (N.of_nat (List.length (Wp_weather v54))) 3%N)) (
    chk 1138 (let! v55 := deref v51 in let! v56 := deref (List.nth_error (Wp_weather v55) 0%nat) in Ok (WpWeather_beq v56 W_RAIN)) (
    chk 1139 (let! v57 := deref v51 in let! v58 := deref (List.nth_error (Wp_weather v57) 1%nat) in Ok (WpWeather_beq v58 W_SNOW)) (
    chk 1140 (let! v59 := deref v51 in let! v60 := deref (List.nth_error (Wp_weather v59) 2%nat) in Ok (WpWeather_beq v60 W_SMALL_HAIL)) (
    chk 1141 (let! v61 := deref v51 in Ok (WpEvent_beq (Wp_event v61) Ev_NONE)) (
    chk 1142 (let! v62 := deref v51 in Ok (negb (has_value (wpTm v62)))) (
    None))))))))))))))))))))))))))))))))))))))))))))))))))))))).

Definition t_WeatherPhenomena_fromString_precipitation_mixed_qualifier_light : option N :=
    step 1146 ((Wp_fromString "-DZSG" true)) (fun v1 => 
    chk 1147 (Ok (has_value v1)) (
    chk 1148 (let! v2 := deref v1 in Ok (WpQualifier_beq (Wp_qualifier v2) Q_LIGHT)) (
    chk 1149 (let! v3 := deref v1 in Ok (WpDescriptor_beq (Wp_descriptor v3) D_NONE)) (
    chk 1150 (let! v4 := deref v1 in Ok (N.eqb (N.of_nat (List.length (Wp_weather v4))) 2%N)) (
    chk 1151 (let! v5 := deref v1 in let! v6 := deref (List.nth_error (Wp_weather v5) 0%nat) in Ok (WpWeather_beq v6 W_DRIZZLE)) (
    chk 1152 (let! v7 := deref v1 in let! v8 := deref (List.nth_error (Wp_weather v7) 1%nat) in Ok (WpWeather_beq v8 W_SNOW_GRAINS)) (
    chk 1153 (let! v9 := deref v1 in Ok (WpEvent_beq (Wp_event v9) Ev_NONE)) (
    chk 1154 (let! v10 := deref v1 in Ok (negb (has_value (wpTm v10)))) (
    step 1156 ((Wp_fromString "-RAPL" true)) (fun v11 => 
    chk 1157 (Ok (has_value v11)) (
    chk 1158 (let! v12 := deref v11 in Ok (WpQualifier_beq (Wp_qualifier v12) Q_LIGHT)) (
    chk 1159 (let! v13 := deref v11 in Ok (WpDescriptor_beq (Wp_descriptor v13) D_NONE)) (
    chk 1160 (let! v14 := deref v11 in Ok (N.eqb (N.of_nat (List.length (Wp_weather v14))) 2%N)) (
    chk 1161 (let! v15 := deref v11 in let! v16 := deref (List.nth_error (Wp_weather v15) 0%nat) in Ok (WpWeather_beq v16 W_RAIN)) (
    chk 1162 (let! v17 := deref v11 in let! v18 := deref (List.nth_error (Wp_weather v17) 1%nat) in Ok (WpWeather_beq v18 W_ICE_PELLETS)) (
    chk 1163 (let! v19 := deref v11 in Ok (WpEvent_beq (Wp_event v19) Ev_NONE)) (
    chk 1164 (let! v20 := deref v11 in Ok (negb (has_value (wpTm v20)))) (
    step 1166 ((Wp_fromString "-SNGS" true)) (fun v21 => 
    chk 1167 (Ok (has_value v21)) (
    chk 1168 (let! v22 := deref v21 in Ok (WpQualifier_beq (Wp_qualifier v22) Q_LIGHT)) (
    chk 1169 (let! v23 := deref v21 in Ok (WpDescriptor_beq (Wp_descriptor v23) D_NONE)) (
    chk 1170 (let! v24 := deref v21 in Ok (N.eqb (N.of_nat (List.length (Wp_weather v24))) 2%N)) (
    chk 1171 (let! v25 := deref v21 in let! v26 := deref (List.nth_error (Wp_weather v25) 0%nat) in Ok (WpWeather_beq v26 W_SNOW)) (
    chk 1172 (let! v27 := deref v21 in let! v28 := deref (List.nth_error (Wp_weather v27) 1%nat) in Ok (WpWeather_beq v28 W_SMALL_HAIL)) (
    chk 1173 (let! v29 := deref v21 in Ok (WpEvent_beq (Wp_event v29) Ev_NONE)) (
    chk 1174 (let! v30 := deref v21 in Ok (negb (has_value (wpTm v30)))) (
    step 1176 ((Wp_fromString "-RAGR" true)) (fun v31 => 
    chk 1177 (Ok (has_value v31)) (
    chk 1178 (let! v32 := deref v31 in Ok (WpQualifier_beq (Wp_qualifier v32) Q_LIGHT)) (
    chk 1179 (let! v33 := deref v31 in Ok (WpDescriptor_beq (Wp_descriptor v33) D_NONE)) (
    chk 1180 (let! v34 := deref v31 in Ok (N.eqb (N.of_nat (List.length (Wp_weather v34))) 2%N)) (
    chk 1181 (let! v35 := deref v31 in let! v36 := deref (List.nth_error (Wp_weather v35) 0%nat) in Ok (WpWeather_beq v36 W_RAIN)) (
    chk 1182 (let! v37 := deref v31 in let! v38 := deref (List.nth_error (Wp_weather v37) 1%nat) in Ok (WpWeather_beq v38 W_HAIL)) (
    chk 1183 (let! v39 := deref v31 in Ok (WpEvent_beq (Wp_event v39) Ev_NONE)) (
    chk 1184 (let! v40 := deref v31 in Ok (negb (has_value (wpTm v40)))) (
    step 1186 ((Wp_fromString "-RAUP" true)) (fun v41 => 
    chk 1187 (Ok (has_value v41)) (
    chk 1188 (let! v42 := deref v41 in Ok (WpQualifier_beq (Wp_qualifier v42) Q_LIGHT)) (
    chk 1189 (let! v43 := deref v41 in Ok (WpDescriptor_beq (Wp_descriptor v43) D_NONE)) (
    chk 1190 (let! v44 := deref v41 in Ok (N.eqb (N.of_nat (List.length (Wp_weather v44))) 2%N)) (
    chk 1191 (let! v45 := deref v41 in let! v46 := deref (List.nth_error (Wp_weather v45) 0%nat) in Ok (WpWeather_beq v46 W_RAIN)) (
    chk 1192 (let! v47 := deref v41 in let! v48 := deref (List.nth_error (Wp_weather v47) 1%nat) in Ok (WpWeather_beq v48 W_UNDETERMINED)) (
    chk 1193 (let! v49 := deref v41 in Ok (WpEvent_beq (Wp_event v49) Ev_NONE)) (
    chk 1194 (let! v50 := deref v41 in Ok (negb (has_value (wpTm v50)))) (
    step 1196 ((Wp_fromString "-RASNGS" true)) (fun v51 => 
    chk 1197 (Ok (has_value v51)) (
    chk 1198 (let! v52 := deref v51 in Ok (WpQualifier_beq (Wp_qualifier v52) Q_LIGHT)) (
    chk 1199 (let! v53 := deref v51 in Ok (WpDescriptor_beq (Wp_descriptor v53) D_NONE)) (
    chk 1200 (let! v54 := deref v51 in Ok (N.eqb (N.of_nat (List.length (Wp_weather v54))) 3%N)) (
    chk 1201 (let! v55 := deref v51 in let! v56 := deref (List.nth_error (Wp_weather v55) 0%nat) in Ok (WpWeather_beq v56 W_RAIN)) (
    chk 1202 (let! v57 := deref v51 in let! v58 := deref (List.nth_error (Wp_weather v57) 1%nat) in Ok (WpWeather_beq v58 W_SNOW)) (
    chk 1203 (let! v59 := deref v51 in let! v60 := deref (List.nth_error (Wp_weather v59) 2%nat) in Ok (WpWeather_beq v60 W_SMALL_HAIL)) (
    chk 1204 (let! v61 := deref v51 in Ok (WpEvent_beq (Wp_event v61) Ev_NONE)) (
    chk 1205 (let! v62 := deref v51 in Ok (negb (has_value (wpTm v62)))) (
    None))))))))))))))))))))))))))))))))))))))))))))))))))))))).

Definition t_WeatherPhenomena_fromString_precipitation_mixed_qualifier_heavy : option N :=
    step 1209 ((Wp_fromString "+DZSG" true)) (fun v1 => 
    chk 1210 (Ok (has_value v1)) (
    chk 1211 (let! v2 := deref v1 in Ok (WpQualifier_beq (Wp_qualifier v2) Q_HEAVY)) (
    chk 1212 (let! v3 := deref v1 in Ok (WpDescriptor_beq (Wp_descriptor v3) D_NONE)) (
    chk 1213 (let! v4 := deref v1 in Ok (N.eqb (N.of_nat (List.length (Wp_weather v4))) 2%N)) (
    chk 1214 (let! v5 := deref v1 in let! v6 := deref (List.nth_error (Wp_weather v5) 0%nat) in Ok (WpWeather_beq v6 W_DRIZZLE)) (
    chk 1215 (let! v7 := deref v1 in let! v8 := deref (List.nth_error (Wp_weather v7) 1%nat) in Ok (WpWeather_beq v8 W_SNOW_GRAINS)) (
    chk 1216 (let! v9 := deref v1 in Ok (WpEvent_beq (Wp_event v9) Ev_NONE)) (
    chk 1217 (let! v10 := deref v1 in Ok (negb (has_value (wpTm v10)))) (
    step 1219 ((Wp_fromString "+RAPL" true)) (fun v11 => 
    chk 1220 (Ok (has_value v11)) (
    chk 1221 (let! v12 := deref v11 in Ok (WpQualifier_beq (Wp_qualifier v12) Q_HEAVY)) (
    chk 1222 (let! v13 := deref v11 in Ok (WpDescriptor_beq (Wp_descriptor v13) D_NONE)) (
    chk 1223 (let! v14 := deref v11 in Ok (N.eqb (N.of_nat (List.length (Wp_weather v14))) 2%N)) (
    chk 1224 (let! v15 := deref v11 in let! v16 := deref (List.nth_error (Wp_weather v15) 0%nat) in Ok (WpWeather_beq v16 W_RAIN)) (
    chk 1225 (let! v17 := deref v11 in let! v18 := deref (List.nth_error (Wp_weather v17) 1%nat) in Ok (WpWeather_beq v18 W_ICE_PELLETS)) (
    chk 1226 (let! v19 := deref v11 in Ok (WpEvent_beq (Wp_event v19) Ev_NONE)) (
    chk 1227 (let! v20 := deref v11 in Ok (negb (has_value (wpTm v20)))) (
    step 1229 ((Wp_fromString "+SNGS" true)) (fun v21 => 
    chk 1230 (Ok (has_value v21)) (
    chk 1231 (let! v22 := deref v21 in Ok (WpQualifier_beq (Wp_qualifier v22) Q_HEAVY)) (
    chk 1232 (let! v23 := deref v21 in Ok (WpDescriptor_beq (Wp_descriptor v23) D_NONE)) (
    chk 1233 (let! v24 := deref v21 in Ok (N.eqb (N.of_nat (List.length (Wp_weather v24))) 2%N)) (
    chk 1234 (let! v25 := deref v21 in let! v26 := deref (List.nth_error (Wp_weather v25) 0%nat) in Ok (WpWeather_beq v26 W_SNOW)) (
    chk 1235 (let! v27 := deref v21 in let! v28 := deref (List.nth_error (Wp_weather v27) 1%nat) in Ok (WpWeather_beq v28 W_SMALL_HAIL)) (
    chk 1236 (let! v29 := deref v21 in Ok (WpEvent_beq (Wp_event v29) Ev_NONE)) (
    chk 1237 (let! v30 := deref v21 in Ok (negb (has_value (wpTm v30)))) (
    step 1239 ((Wp_fromString "+RAGR" true)) (fun v31 => 
    chk 1240 (Ok (has_value v31)) (
    chk 1241 (let! v32 := deref v31 in Ok (WpQualifier_beq (Wp_qualifier v32) Q_HEAVY)) (
    chk 1242 (let! v33 := deref v31 in Ok (WpDescriptor_beq (Wp_descriptor v33) D_NONE)) (
    chk 1243 (let! v34 := deref v31 in Ok (N.eqb (N.of_nat (List.length (Wp_weather v34))) 2%N)) (
    chk 1244 (let! v35 := deref v31 in let! v36 := deref (List.nth_error (Wp_weather v35) 0%nat) in Ok (WpWeather_beq v36 W_RAIN)) (
    chk 1245 (let! v37 := deref v31 in let! v38 := deref (List.nth_error (Wp_weather v37) 1%nat) in Ok (WpWeather_beq v38 W_HAIL)) (
    chk 1246 (let! v39 := deref v31 in Ok (WpEvent_beq (Wp_event v39) Ev_NONE)) (
    chk 1247 (let! v40 := deref v31 in Ok (negb (has_value (wpTm v40)))) (
    step 1249 ((Wp_fromString "+RAUP" true)) (fun v41 => 
    chk 1250 (Ok (has_value v41)) (
    chk 1251 (let! v42 := deref v41 in Ok (WpQualifier_beq (Wp_qualifier v42) Q_HEAVY)) (
    chk 1252 (let! v43 := deref v41 in Ok (WpDescriptor_beq (Wp_descriptor v43) D_NONE)) (
    chk 1253 (let! v44 := deref v41 in Ok (N.eqb (N.of_nat (List.length (Wp_weather v44))) 2%N)) (
    chk 1254 (let! v45 := deref v41 in let! v46 := deref (List.nth_error (Wp_weather v45) 0%nat) in Ok (WpWeather_beq v46 W_RAIN)) (
    chk 1255 (let! v47 := deref v41 in let! v48 := deref (List.nth_error (Wp_weather v47) 1%nat) in Ok (WpWeather_beq v48 W_UNDETERMINED)) (
    chk 1256 (let! v49 := deref v41 in Ok (WpEvent_beq (Wp_event v49) Ev_NONE)) (
    chk 1257 (let! v50 := deref v41 in Ok (negb (has_value (wpTm v50)))) (
    step 1259 ((Wp_fromString "+RASNGS" true)) (fun v51 => 
    chk 1260 (Ok (has_value v51)) (
    chk 1261 (let! v52 := deref v51 in Ok (WpQualifier_beq (Wp_qualifier v52) Q_HEAVY)) (
    chk 1262 (let! v53 := deref v51 in Ok (WpDescriptor_beq (Wp_descriptor v53) D_NONE)) (
    chk 1263 (let! v54 := deref v51 in Ok (N.eqb (N.of_nat (List.length (Wp_weather v54))) 3%N)) (
    chk 1264 (let! v55 := deref v51 in let! v56 := deref (List.nth_error (Wp_weather v55) 0%nat) in Ok (WpWeather_beq v56 W_RAIN)) (
    chk 1265 (let! v57 := deref v51 in let! v58 := deref (List.nth_error (Wp_weather v57) 1%nat) in Ok (WpWeather_beq v58 W_SNOW)) (
    chk 1266 (let! v59 := deref v51 in let! v60 := deref (List.nth_error (Wp_weather v59) 2%nat) in Ok (WpWeather_beq v60 W_SMALL_HAIL)) (
    chk 1267 (let! v61 := deref v51 in Ok (WpEvent_beq (Wp_event v61) Ev_NONE)) (
    chk 1268 (let! v62 := deref v51 in Ok (negb (has_value (wpTm v62)))) (
    None))))))))))))))))))))))))))))))))))))))))))))))))))))))).

Definition t_WeatherPhenomena_fromString_precipitation_mixed_qualifier_recent : option N :=
    step 1272 ((Wp_fromString "REDZSG" true)) (fun v1 => 
    chk 1273 (Ok (has_value v1)) (
    chk 1274 (let! v2 := deref v1 in Ok (WpQualifier_beq (Wp_qualifier v2) Q_RECENT)) (
    chk 1275 (let! v3 := deref v1 in Ok (WpDescriptor_beq (Wp_descriptor v3) D_NONE)) (
    chk 1276 (let! v4 := deref v1 in Ok (N.eqb (N.of_nat (List.length (Wp_weather v4))) 2%N)) (
    chk 1277 (let! v5 := deref v1 in let! v6 := deref (List.nth_error (Wp_weather v5) 0%nat) in Ok (WpWeather_beq v6 W_DRIZZLE)) (
    chk 1278 (let! v7 := deref v1 in let! v8 := deref (List.nth_error (Wp_weather v7) 1%nat) in Ok (WpWeather_beq v8 W_SNOW_GRAINS)) (
    chk 1279 (let! v9 := deref v1 in Ok (WpEvent_beq (Wp_event v9) Ev_NONE)) (
    chk 1280 (let! v10 := deref v1 in Ok (negb (has_value (wpTm v10)))) (
    step 1282 ((Wp_fromString "RERAPL" true)) (fun v11 => 
    chk 1283 (Ok (has_value v11)) (
    chk 1284 (let! v12 := deref v11 in Ok (WpQualifier_beq (Wp_qualifier v12) Q_RECENT)) (
    chk 1285 (let! v13 := deref v11 in Ok (WpDescriptor_beq (Wp_descriptor v13) D_NONE)) (
    chk 1286 (let! v14 := deref v11 in Ok (N.eqb (N.of_nat (List.length (Wp_weather v14))) 2%N)) (
    chk 1287 (let! v15 := deref v11 in let! v16 := deref (List.nth_error (Wp_weather v15) 0%nat) in Ok (WpWeather_beq v16 W_RAIN)) (
    chk 1288 (let! v17 := deref v11 in let! v18 := deref (List.nth_error (Wp_weather v17) 1%nat) in Ok (WpWeather_beq v18 W_ICE_PELLETS)) (
    chk 1289 (let! v19 := deref v11 in Ok (WpEvent_beq (Wp_event v19) Ev_NONE)) (
    chk 1290 (let! v20 := deref v11 in Ok (negb (has_value (wpTm v20)))) (
    step 1292 ((Wp_fromString "RESNGS" true)) (fun v21 => 
    chk 1293 (Ok (has_value v21)) (
    chk 1294 (let! v22 := deref v21 in Ok (WpQualifier_beq (Wp_qualifier v22) Q_RECENT)) (
    chk 1295 (let! v23 := deref v21 in Ok (WpDescriptor_beq (Wp_descriptor v23) D_NONE)) (
    chk 1296 (let! v24 := deref v21 in Ok (N.eqb (N.of_nat (List.length (Wp_weather v24))) 2%N)) (
    chk 1297 (let! v25 := deref v21 in let! v26 := deref (List.nth_error (Wp_weather v25) 0%nat) in Ok (WpWeather_beq v26 W_SNOW)) (
    chk 1298 (let! v27 := deref v21 in let! v28 := deref (List.nth_error (Wp_weather v27) 1%nat) in Ok (WpWeather_beq v28 W_SMALL_HAIL)) (
    chk 1299 (let! v29 := deref v21 in Ok (WpEvent_beq (Wp_event v29) Ev_NONE)) (
    chk 1300 (let! v30 := deref v21 in Ok (negb (has_value (wpTm v30)))) (
    step 1302 ((Wp_fromString "RERAGR" true)) (fun v31 => 
    chk 1303 (Ok (has_value v31)) (
    chk 1304 (let! v32 := deref v31 in Ok (WpQualifier_beq (Wp_qualifier v32) Q_RECENT)) (
    chk 1305 (let! v33 := deref v31 in Ok (WpDescriptor_beq (Wp_descriptor v33) D_NONE)) (
    chk 1306 (let! v34 := deref v31 in Ok (N.eqb (N.of_nat (List.length (Wp_weather v34))) 2%N)) (
    chk 1307 (let! v35 := deref v31 in let! v36 := deref (List.nth_error (Wp_weather v35) 0%nat) in Ok (WpWeather_beq v36 W_RAIN)) (
    chk 1308 (let! v37 := deref v31 in let! v38 := deref (List.nth_error (Wp_weather v37) 1%nat) in Ok (WpWeather_beq v38 W_HAIL)) (
    chk 1309 (let! v39 := deref v31 in Ok (WpEvent_beq (Wp_event v39) Ev_NONE)) (
    chk 1310 (let! v40 := deref v31 in Ok (negb (has_value (wpTm v40)))) (
    step 1312 ((Wp_fromString "RERAUP" true)) (fun v41 => 
    chk 1313 (Ok (has_value v41)) (
    chk 1314 (let! v42 := deref v41 in Ok (WpQualifier_beq (Wp_qualifier v42) Q_RECENT)) (
    chk 1315 (let! v43 := deref v41 in Ok (WpDescriptor_beq (Wp_descriptor v43) D_NONE)) (
    chk 1316 (let! v44 := deref v41 in Ok (N.eqb (N.of_nat (List.length (Wp_weather v44))) 2%N)) (
    chk 1317 (let! v45 := deref v41 in let! v46 := deref (List.nth_error (Wp_weather v45) 0%nat) in Ok (WpWeather_beq v46 W_RAIN)) (
    chk 1318 (let! v47 := deref v41 in let! v48 := deref (List.nth_error (Wp_weather v47) 1%nat) in Ok (WpWeather_beq v48 W_UNDETERMINED)) (
    chk 1319 (let! v49 := deref v41 in Ok (WpEvent_beq (Wp_event v49) Ev_NONE)) (
    chk 1320 (let! v50 := deref v41 in Ok (negb (has_value (wpTm v50)))) (
    step 1322 ((Wp_fromString "RERASNGS" true)) (fun v51 => 
    chk 1323 (Ok (has_value v51)) (
    chk 1324 (let! v52 := deref v51 in Ok (WpQualifier_beq (Wp_qualifier v52) Q_RECENT)) (
    chk 1325 (let! v53 := deref v51 in Ok (WpDescriptor_beq (Wp_descriptor v53) D_NONE)) (
    chk 1326 (let! v54 := deref v51 in Ok (N.eqb (N.of_nat (List.length (Wp_weather v54))) 3%N)) (
    chk 1327 (let! v55 := deref v51 in let! v56 := deref (List.nth_error (Wp_weather v55) 0%nat) in Ok (WpWeather_beq v56 W_RAIN)) (
    chk 1328 (let! v57 := deref v51 in let! v58 := deref (List.nth_error (Wp_weather v57) 1%nat) in Ok (WpWeather_beq v58 W_SNOW)) (
    chk 1329 (let! v59 := deref v51 in let! v60 := deref (List.nth_error (Wp_weather v59) 2%nat) in Ok (WpWeather_beq v60 W_SMALL_HAIL)) (
    chk 1330 (let! v61 := deref v51 in Ok (WpEvent_beq (Wp_event v61) Ev_NONE)) (
    chk 1331 (let! v62 := deref v51 in Ok (negb (has_value (wpTm v62)))) (
    None))))))))))))))))))))))))))))))))))))))))))))))))))))))).

Definition t_WeatherPhenomena_fromString_precipitation_descriptor_ts : option N :=
    step 1342 ((Wp_fromString "TSRA" false)) (fun v1 => 
    chk 1343 (Ok (has_value v1)) (
    chk 1344 (let! v2 := deref v1 in Ok (WpQualifier_beq (Wp_qualifier v2) Q_NONE)) (
    chk 1345 (let! v3 := deref v1 in Ok (WpDescriptor_beq (Wp_descriptor v3) D_THUNDERSTORM)) (
    chk 1346 (let! v4 := deref v1 in Ok (N.eqb (N.of_nat (List.length (Wp_weather v4))) 1%N)) (
    chk 1347 (let! v5 := deref v1 in let! v6 := deref (List.nth_error (Wp_weather v5) 0%nat) in Ok (WpWeather_beq v6 W_RAIN)) (
    chk 1348 (let! v7 := deref v1 in Ok (WpEvent_beq (Wp_event v7) Ev_NONE)) (
    chk 1349 (let! v8 := deref v1 in Ok (negb (has_value (wpTm v8)))) (
    step 1351 ((Wp_fromString "TSSN" false)) (fun v9 => 
    chk 1352 (Ok (has_value v9)) (
    chk 1353 (let! v10 := deref v9 in Ok (WpQualifier_beq (Wp_qualifier v10) Q_NONE)) (
    chk 1354 (let! v11 := deref v9 in Ok (WpDescriptor_beq (Wp_descriptor v11) D_THUNDERSTORM)) (
    chk 1355 (let! v12 := deref v9 in Ok (N.eqb (N.of_nat (List.length (Wp_weather v12))) 1%N)) (
    chk 1356 (let! v13 := deref v9 in let! v14 := deref (List.nth_error (Wp_weather v13) 0%nat) in Ok (WpWeather_beq v14 W_SNOW)) (
    chk 1357 (let! v15 := deref v9 in Ok (WpEvent_beq (Wp_event v15) Ev_NONE)) (
    chk 1358 (let! v16 := deref v9 in Ok (negb (has_value (wpTm v16)))) (
    step 1360 ((Wp_fromString "TSPL" false)) (fun v17 => 
    chk 1361 (Ok (has_value v17)) (
    chk 1362 (let! v18 := deref v17 in Ok (WpQualifier_beq (Wp_qualifier v18) Q_NONE)) (
    chk 1363 (let! v19 := deref v17 in Ok (WpDescriptor_beq (Wp_descriptor v19) D_THUNDERSTORM)) (
    chk 1364 (let! v20 := deref v17 in Ok (N.eqb (N.of_nat (List.length (Wp_weather v20))) 1%N)) (
    chk 1365 (let! v21 := deref v17 in let! v22 := deref (List.nth_error (Wp_weather v21) 0%nat) in Ok (WpWeather_beq v22 W_ICE_PELLETS)) (
    chk 1366 (let! v23 := deref v17 in Ok (WpEvent_beq (Wp_event v23) Ev_NONE)) (
    chk 1367 (let! v24 := deref v17 in Ok (negb (has_value (wpTm v24)))) (
    step 1369 ((Wp_fromString "TSDZ" false)) (fun v25 => 
    chk 1370 (Ok (has_value v25)) (
    chk 1371 (let! v26 := deref v25 in Ok (WpQualifier_beq (Wp_qualifier v26) Q_NONE)) (
    chk 1372 (let! v27 := deref v25 in Ok (WpDescriptor_beq (Wp_descriptor v27) D_THUNDERSTORM)) (
    chk 1373 (let! v28 := deref v25 in Ok (N.eqb (N.of_nat (List.length (Wp_weather v28))) 1%N)) (
    chk 1374 (let! v29 := deref v25 in let! v30 := deref (List.nth_error (Wp_weather v29) 0%nat) in Ok (WpWeather_beq v30 W_DRIZZLE)) (
    chk 1375 (let! v31 := deref v25 in Ok (WpEvent_beq (Wp_event v31) Ev_NONE)) (
    chk 1376 (let! v32 := deref v25 in Ok (negb (has_value (wpTm v32)))) (
    step 1378 ((Wp_fromString "TSSG" false)) (fun v33 => 
    chk 1379 (Ok (has_value v33)) (
    chk 1380 (let! v34 := deref v33 in Ok (WpQualifier_beq (Wp_qualifier v34) Q_NONE)) (
    chk 1381 (let! v35 := deref v33 in Ok (WpDescriptor_beq (Wp_descriptor v35) D_THUNDERSTORM)) (
    chk 1382 (let! v36 := deref v33 in Ok (N.eqb (N.of_nat (List.length (Wp_weather v36))) 1%N)) (
    chk 1383 (let! v37 := deref v33 in let! v38 := deref (List.nth_error (Wp_weather v37) 0%nat) in Ok (WpWeather_beq v38 W_SNOW_GRAINS)) (
    chk 1384 (let! v39 := deref v33 in Ok (WpEvent_beq (Wp_event v39) Ev_NONE)) (
    chk 1385 (let! v40 := deref v33 in Ok (negb (has_value (wpTm v40)))) (
    step 1387 ((Wp_fromString "TSGR" false)) (fun v41 => 
    chk 1388 (Ok (has_value v41)) (
    chk 1389 (let! v42 := deref v41 in Ok (WpQualifier_beq (Wp_qualifier v42) Q_NONE)) (
    chk 1390 (let! v43 := deref v41 in Ok (WpDescriptor_beq (Wp_descriptor v43) D_THUNDERSTORM)) (
    chk 1391 (let! v44 := deref v41 in Ok (N.eqb (N.of_nat (List.length (Wp_weather v44))) 1%N)) (
    chk 1392 (let! v45 := deref v41 in let! v46 := deref (List.nth_error (Wp_weather v45) 0%nat) in Ok (WpWeather_beq v46 W_HAIL)) (
    chk 1393 (let! v47 := deref v41 in Ok (WpEvent_beq (Wp_event v47) Ev_NONE)) (
    chk 1394 (let! v48 := deref v41 in Ok (negb (has_value (wpTm v48)))) (
    step 1396 ((Wp_fromString "TSGS" false)) (fun v49 => 
    chk 1397 (Ok (has_value v49)) (
    chk 1398 (let! v50 := deref v49 in Ok (WpQualifier_beq (Wp_qualifier v50) Q_NONE)) (
    chk 1399 (let! v51 := deref v49 in Ok (WpDescriptor_beq (Wp_descriptor v51) D_THUNDERSTORM)) (
    chk 1400 (let! v52 := deref v49 in Ok (N.eqb (N.of_nat (List.length (Wp_weather v52))) 1%N)) (
    chk 1401 (let! v53 := deref v49 in let! v54 := deref (List.nth_error (Wp_weather v53) 0%nat) in Ok (WpWeather_beq v54 W_SMALL_HAIL)) (
    chk 1402 (let! v55 := deref v49 in Ok (WpEvent_beq (Wp_event v55) Ev_NONE)) (
    chk 1403 (let! v56 := deref v49 in Ok (negb (has_value (wpTm v56)))) (
    step 1405 ((Wp_fromString "TSUP" false)) (fun v57 => 
    chk 1406 (Ok (has_value v57)) (
    chk 1407 (let! v58 := deref v57 in Ok (WpQualifier_beq (Wp_qualifier v58) Q_NONE)) (
    chk 1408 (let! v59 := deref v57 in Ok (WpDescriptor_beq (Wp_descriptor v59) D_THUNDERSTORM)) (
    chk 1409 (let! v60 := deref v57 in Ok (N.eqb (N.of_nat (List.length (Wp_weather v60))) 1%N)) (
    chk 1410 (let! v61 := deref v57 in let! v62 := deref (List.nth_error (Wp_weather v61) 0%nat) in Ok (WpWeather_beq v62 W_UNDETERMINED)) (
    chk 1411 (let! v63 := deref v57 in Ok (WpEvent_beq (Wp_event v63) Ev_NONE)) (
    chk 1412 (let! v64 := deref v57 in Ok (negb (has_value (wpTm v64)))) (
    None)))))))))))))))))))))))))))))))))))))))))))))))))))))))))))))))).

Definition t_WeatherPhenomena_fromString_precipitation_descriptor_ts_mixed : option N :=
    step 1416 ((Wp_fromString "TSRAGR" false)) (fun v1 => 
    chk 1417 (Ok (has_value v1)) (
    chk 1418 (let! v2 := deref v1 in Ok (WpQualifier_beq (Wp_qualifier v2) Q_NONE)) (
    chk 1419 (let! v3 := deref v1 in Ok (WpDescriptor_beq (Wp_descriptor v3) D_THUNDERSTORM)) (
    chk 1420 (let! v4 := deref v1 in Ok (N.eqb (N.of_nat (List.length (Wp_weather v4))) 2%N)) (
    chk 1421 (let! v5 := deref v1 in let! v6 := deref (List.nth_error (Wp_weather v5) 0%nat) in Ok (WpWeather_beq v6 W_RAIN)) (
    chk 1422 (let! v7 := deref v1 in let! v8 := deref (List.nth_error (Wp_weather v7) 1%nat) in Ok (WpWeather_beq v8 W_HAIL)) (
    chk 1423 (let! v9 := deref v1 in Ok (WpEvent_beq (Wp_event v9) Ev_NONE)) (
    chk 1424 (let! v10 := deref v1 in Ok (negb (has_value (wpTm v10)))) (
    step 1426 ((Wp_fromString "TSRASNPL" false)) (fun v11 => 
    chk 1427 (Ok (has_value v11)) (
    chk 1428 (let! v12 := deref v11 in Ok (WpQualifier_beq (Wp_qualifier v12) Q_NONE)) (
    chk 1429 (let! v13 := deref v11 in Ok (WpDescriptor_beq (Wp_descriptor v13) D_THUNDERSTORM)) (
    chk 1430 (let! v14 := deref v11 in Ok (N.eqb (N.of_nat (List.length (Wp_weather v14))) 3%N)) (
    chk 1431 (let! v15 := deref v11 in let! v16 := deref (List.nth_error (Wp_weather v15) 0%nat) in Ok (WpWeather_beq v16 W_RAIN)) (
    chk 1432 (let! v17 := deref v11 in let! v18 := deref (List.nth_error (Wp_weather v17) 1%nat) in Ok (WpWeather_beq v18 W_SNOW)) (
    chk 1433 (let! v19 := deref v11 in let! v20 := deref (List.nth_error (Wp_weather v19) 2%nat) in Ok (WpWeather_beq v20 W_ICE_PELLETS)) (
    chk 1434 (let! v21 := deref v11 in Ok (WpEvent_beq (Wp_event v21) Ev_NONE)) (
    chk 1435 (let! v22 := deref v11 in Ok (negb (has_value (wpTm v22)))) (
    step 1437 ((Wp_fromString "TSRAGS" false)) (fun v23 => 
    chk 1438 (Ok (has_value v23)) (
    chk 1439 (let! v24 := deref v23 in Ok (WpQualifier_beq (Wp_qualifier v24) Q_NONE)) (
    chk 1440 (let! v25 := deref v23 in Ok (WpDescriptor_beq (Wp_descriptor v25) D_THUNDERSTORM)) (
    chk 1441 (let! v26 := deref v23 in Ok (N.eqb (N.of_nat (List.length (Wp_weather v26))) 2%N)) (
    chk 1442 (let! v27 := deref v23 in let! v28 := deref (List.nth_error (Wp_weather v27) 0%nat) in Ok (WpWeather_beq v28 W_RAIN)) (
    chk 1443 (let! v29 := deref v23 in let! v30 := deref (List.nth_error (Wp_weather v29) 1%nat) in Ok (WpWeather_beq v30 W_SMALL_HAIL)) (
    chk 1444 (let! v31 := deref v23 in Ok (WpEvent_beq (Wp_event v31) Ev_NONE)) (
    chk 1445 (let! v32 := deref v23 in Ok (negb (has_value (wpTm v32)))) (
    None)))))))))))))))))))))))))))).

Definition t_WeatherPhenomena_fromString_precipitation_descriptor_ts_qualifier : option N :=
    step 1455 ((Wp_fromString "TSRA" false)) (fun v1 => 
    chk 1456 (Ok (has_value v1)) (
    chk 1457 (let! v2 := deref v1 in Ok (WpQualifier_beq (Wp_qualifier v2) Q_NONE)) (
    chk 1458 (let! v3 := deref v1 in Ok (WpDescriptor_beq (Wp_descriptor v3) D_THUNDERSTORM)) (
    chk 1459 (let! v4 := deref v1 in Ok (N.eqb (N.of_nat (List.length (Wp_weather v4))) 1%N)) (
    chk 1460 (let! v5 := deref v1 in let! v6 := deref (List.nth_error (Wp_weather v5) 0%nat) in Ok (WpWeather_beq v6 W_RAIN)) (
    chk 1461 (let! v7 := deref v1 in Ok (WpEvent_beq (Wp_event v7) Ev_NONE)) (
    chk 1462 (let! v8 := deref v1 in Ok (negb (has_value (wpTm v8)))) (
    step 1464 ((Wp_fromString "TSRA" true)) (fun v9 => 
    chk 1465 (Ok (has_value v9)) (
    chk 1466 (let! v10 := deref v9 in Ok (WpQualifier_beq (Wp_qualifier v10) Q_MODERATE)) (
    chk 1467 (let! v11 := deref v9 in Ok (WpDescriptor_beq (Wp_descriptor v11) D_THUNDERSTORM)) (
    chk 1468 (let! v12 := deref v9 in Ok (N.eqb (N.of_nat (List.length (Wp_weather v12))) 1%N)) (
    chk 1469 (let! v13 := deref v9 in let! v14 := deref (List.nth_error (Wp_weather v13) 0%nat) in Ok (WpWeather_beq v14 W_RAIN)) (
    chk 1470 (let! v15 := deref v9 in Ok (WpEvent_beq (Wp_event v15) Ev_NONE)) (
    chk 1471 (let! v16 := deref v9 in Ok (negb (has_value (wpTm v16)))) (
    step 1473 ((Wp_fromString "-TSRA" true)) (fun v17 => 
    chk 1474 (Ok (has_value v17)) (
    chk 1475 (let! v18 := deref v17 in Ok (WpQualifier_beq (Wp_qualifier v18) Q_LIGHT)) (
    chk 1476 (let! v19 := deref v17 in Ok (WpDescriptor_beq (Wp_descriptor v19) D_THUNDERSTORM)) (
    chk 1477 (let! v20 := deref v17 in Ok (N.eqb (N.of_nat (List.length (Wp_weather v20))) 1%N)) (
    chk 1478 (let! v21 := deref v17 in let! v22 := deref (List.nth_error (Wp_weather v21) 0%nat) in Ok (WpWeather_beq v22 W_RAIN)) (
    chk 1479 (let! v23 := deref v17 in Ok (WpEvent_beq (Wp_event v23) Ev_NONE)) (
    chk 1480 (let! v24 := deref v17 in Ok (negb (has_value (wpTm v24)))) (
    step 1482 ((Wp_fromString "+TSRA" true)) (fun v25 => 
    chk 1483 (Ok (has_value v25)) (
    chk 1484 (let! v26 := deref v25 in Ok (WpQualifier_beq (Wp_qualifier v26) Q_HEAVY)) (
    chk 1485 (let! v27 := deref v25 in Ok (WpDescriptor_beq (Wp_descriptor v27) D_THUNDERSTORM)) (
    chk 1486 (let! v28 := deref v25 in Ok (N.eqb (N.of_nat (List.length (Wp_weather v28))) 1%N)) (
    chk 1487 (let! v29 := deref v25 in let! v30 := deref (List.nth_error (Wp_weather v29) 0%nat) in Ok (WpWeather_beq v30 W_RAIN)) (
    chk 1488 (let! v31 := deref v25 in Ok (WpEvent_beq (Wp_event v31) Ev_NONE)) (
    chk 1489 (let! v32 := deref v25 in Ok (negb (has_value (wpTm v32)))) (
    step 1491 ((Wp_fromString "TSUP" true)) (fun v33 => 
    chk 1492 (Ok (has_value v33)) (
    chk 1493 (let! v34 := deref v33 in Ok (WpQualifier_beq (Wp_qualifier v34) Q_MODERATE)) (
    chk 1494 (let! v35 := deref v33 in Ok (WpDescriptor_beq (Wp_descriptor v35) D_THUNDERSTORM)) (
    chk 1495 (let! v36 := deref v33 in Ok (N.eqb (N.of_nat (List.length (Wp_weather v36))) 1%N)) (
    chk 1496 (let! v37 := deref v33 in let! v38 := deref (List.nth_error (Wp_weather v37) 0%nat) in Ok (WpWeather_beq v38 W_UNDETERMINED)) (
    chk 1497 (let! v39 := deref v33 in Ok (WpEvent_beq (Wp_event v39) Ev_NONE)) (
    chk 1498 (let! v40 := deref v33 in Ok (negb (has_value (wpTm v40)))) (
    step 1500 ((Wp_fromString "+TSUP" true)) (fun v41 => 
    chk 1501 (Ok (has_value v41)) (
    chk 1502 (let! v42 := deref v41 in Ok (WpQualifier_beq (Wp_qualifier v42) Q_HEAVY)) (
    chk 1503 (let! v43 := deref v41 in Ok (WpDescriptor_beq (Wp_descriptor v43) D_THUNDERSTORM)) (
    chk 1504 (let! v44 := deref v41 in Ok (N.eqb (N.of_nat (List.length (Wp_weather v44))) 1%N)) (
    chk 1505 (let! v45 := deref v41 in let! v46 := deref (List.nth_error (Wp_weather v45) 0%nat) in Ok (WpWeather_beq v46 W_UNDETERMINED)) (
    chk 1506 (let! v47 := deref v41 in Ok (WpEvent_beq (Wp_event v47) Ev_NONE)) (
    chk 1507 (let! v48 := deref v41 in Ok (negb (has_value (wpTm v48)))) (
    step 1509 ((Wp_fromString "-TSUP" true)) (fun v49 => 
    chk 1510 (Ok (has_value v49)) (
    chk 1511 (let! v50 := deref v49 in Ok (WpQualifier_beq (Wp_qualifier v50) Q_LIGHT)) (
    chk 1512 (let! v51 := deref v49 in Ok (WpDescriptor_beq (Wp_descriptor v51) D_THUNDERSTORM)) (
    chk 1513 (let! v52 := deref v49 in Ok (N.eqb (N.of_nat (List.length (Wp_weather v52))) 1%N)) (
    chk 1514 (let! v53 := deref v49 in let! v54 := deref (List.nth_error (Wp_weather v53) 0%nat) in Ok (WpWeather_beq v54 W_UNDETERMINED)) (
    chk 1515 (let! v55 := deref v49 in Ok (WpEvent_beq (Wp_event v55) Ev_NONE)) (
    chk 1516 (let! v56 := deref v49 in Ok (negb (has_value (wpTm v56)))) (
    step 1518 ((Wp_fromString "RETSUP" true)) (fun v57 => 
    chk 1519 (Ok (has_value v57)) (
    chk 1520 (let! v58 := deref v57 in Ok (WpQualifier_beq (Wp_qualifier v58) Q_RECENT)) (
    chk 1521 (let! v59 := deref v57 in Ok (WpDescriptor_beq (Wp_descriptor v59) D_THUNDERSTORM)) (
    chk 1522 (let! v60 := deref v57 in Ok (N.eqb (N.of_nat (List.length (Wp_weather v60))) 1%N)) (
    chk 1523 (let! v61 := deref v57 in let! v62 := deref (List.nth_error (Wp_weather v61) 0%nat) in Ok (WpWeather_beq v62 W_UNDETERMINED)) (
    chk 1524 (let! v63 := deref v57 in Ok (WpEvent_beq (Wp_event v63) Ev_NONE)) (
    chk 1525 (let! v64 := deref v57 in Ok (negb (has_value (wpTm v64)))) (
    None)))))))))))))))))))))))))))))))))))))))))))))))))))))))))))))))).

Definition t_WeatherPhenomena_fromString_precipitation_descriptor_ts_mixed_qualifier : option N :=
    step 1529 ((Wp_fromString "TSRAGR" false)) (fun v1 => 
    chk 1530 (Ok (has_value v1)) (
    chk 1531 (let! v2 := deref v1 in Ok (WpQualifier_beq (Wp_qualifier v2) Q_NONE)) (
    chk 1532 (let! v3 := deref v1 in Ok (WpDescriptor_beq (Wp_descriptor v3) D_THUNDERSTORM)) (
    chk 1533 (let! v4 := deref v1 in Ok (N.eqb (N.of_nat (List.length (Wp_weather v4))) 2%N)) (
    chk 1534 (let! v5 := deref v1 in let! v6 := deref (List.nth_error (Wp_weather v5) 0%nat) in Ok (WpWeather_beq v6 W_RAIN)) (
    chk 1535 (let! v7 := deref v1 in let! v8 := deref (List.nth_error (Wp_weather v7) 1%nat) in Ok (WpWeather_beq v8 W_HAIL)) (
    chk 1536 (let! v9 := deref v1 in Ok (WpEvent_beq (Wp_event v9) Ev_NONE)) (
    chk 1537 (let! v10 := deref v1 in Ok (negb (has_value (wpTm v10)))) (
    step 1539 ((Wp_fromString "TSRAGR" true)) (fun v11 => 
    chk 1540 (Ok (has_value v11)) (
    chk 1541 (let! v12 := deref v11 in Ok (WpQualifier_beq (Wp_qualifier v12) Q_MODERATE)) (
    chk 1542 (let! v13 := deref v11 in Ok (WpDescriptor_beq (Wp_descriptor v13) D_THUNDERSTORM)) (
    chk 1543 (let! v14 := deref v11 in Ok (N.eqb (N.of_nat (List.length (Wp_weather v14))) 2%N)) (
    chk 1544 (let! v15 := deref v11 in let! v16 := deref (List.nth_error (Wp_weather v15) 0%nat) in Ok (WpWeather_beq v16 W_RAIN)) (
    chk 1545 (let! v17 := deref v11 in let! v18 := deref (List.nth_error (Wp_weather v17) 1%nat) in Ok (WpWeather_beq v18 W_HAIL)) (
    chk 1546 (let! v19 := deref v11 in Ok (WpEvent_beq (Wp_event v19) Ev_NONE)) (
    chk 1547 (let! v20 := deref v11 in Ok (negb (has_value (wpTm v20)))) (
    step 1549 ((Wp_fromString "-TSRAGR" true)) (fun v21 => 
    chk 1550 (Ok (has_value v21)) (
    chk 1551 (let! v22 := deref v21 in Ok (WpQualifier_beq (Wp_qualifier v22) Q_LIGHT)) (
    chk 1552 (let! v23 := deref v21 in Ok (WpDescriptor_beq (Wp_descriptor v23) D_THUNDERSTORM)) (
    chk 1553 (let! v24 := deref v21 in Ok (N.eqb (N.of_nat (List.length (Wp_weather v24))) 2%N)) (
    chk 1554 (let! v25 := deref v21 in let! v26 := deref (List.nth_error (Wp_weather v25) 0%nat) in Ok (WpWeather_beq v26 W_RAIN)) (
    chk 1555 (let! v27 := deref v21 in let! v28 := deref (List.nth_error (Wp_weather v27) 1%nat) in Ok (WpWeather_beq v28 W_HAIL)) (
    chk 1556 (let! v29 := deref v21 in Ok (WpEvent_beq (Wp_event v29) Ev_NONE)) (
    chk 1557 (let! v30 := deref v21 in Ok (negb (has_value (wpTm v30)))) (
    step 1559 ((Wp_fromString "+TSRAGR" true)) (fun v31 => 
    chk 1560 (Ok (has_value v31)) (
    chk 1561 (let! v32 := deref v31 in Ok (WpQualifier_beq (Wp_qualifier v32) Q_HEAVY)) (
    chk 1562 (let! v33 := deref v31 in Ok (WpDescriptor_beq (Wp_descriptor v33) D_THUNDERSTORM)) (
    chk 1563 (let! v34 := deref v31 in Ok (N.eqb (N.of_nat (List.length (Wp_weather v34))) 2%N)) (
    chk 1564 (let! v35 := deref v31 in let! v36 := deref (List.nth_error (Wp_weather v35) 0%nat) in Ok (WpWeather_beq v36 W_RAIN)) (
    chk 1565 (let! v37 := deref v31 in let! v38 := deref (List.nth_error (Wp_weather v37) 1%nat) in Ok (WpWeather_beq v38 W_HAIL)) (
    chk 1566 (let! v39 := deref v31 in Ok (WpEvent_beq (Wp_event v39) Ev_NONE)) (
    chk 1567 (let! v40 := deref v31 in Ok (negb (has_value (wpTm v40)))) (
    None)))))))))))))))))))))))))))))))))))).

Definition t_WeatherPhenomena_fromString_precipitation_descriptor_sh : option N :=
    step 1578 ((Wp_fromString "SHRA" false)) (fun v1 => 
    chk 1579 (Ok (has_value v1)) (
    chk 1580 (let! v2 := deref v1 in Ok (WpQualifier_beq (Wp_qualifier v2) Q_NONE)) (
    chk 1581 (let! v3 := deref v1 in Ok (WpDescriptor_beq (Wp_descriptor v3) D_SHOWERS)) (
    chk 1582 (let! v4 := deref v1 in Ok (N.eqb (N.of_nat (List.length (Wp_weather v4))) 1%N)) (
    chk 1583 (let! v5 := deref v1 in let! v6 := deref (List.nth_error (Wp_weather v5) 0%nat) in Ok (WpWeather_beq v6 W_RAIN)) (
    chk 1584 (let! v7 := deref v1 in Ok (WpEvent_beq (Wp_event v7) Ev_NONE)) (
    chk 1585 (let! v8 := deref v1 in Ok (negb (has_value (wpTm v8)))) (
    step 1587 ((Wp_fromString "SHSN" false)) (fun v9 => 
    chk 1588 (Ok (has_value v9)) (
    chk 1589 (let! v10 := deref v9 in Ok (WpQualifier_beq (Wp_qualifier v10) Q_NONE)) (
    chk 1590 (let! v11 := deref v9 in Ok (WpDescriptor_beq (Wp_descriptor v11) D_SHOWERS)) (
    chk 1591 (let! v12 := deref v9 in Ok (N.eqb (N.of_nat (List.length (Wp_weather v12))) 1%N)) (
    chk 1592 (let! v13 := deref v9 in let! v14 := deref (List.nth_error (Wp_weather v13) 0%nat) in Ok (WpWeather_beq v14 W_SNOW)) (
    chk 1593 (let! v15 := deref v9 in Ok (WpEvent_beq (Wp_event v15) Ev_NONE)) (
    chk 1594 (let! v16 := deref v9 in Ok (negb (has_value (wpTm v16)))) (
    step 1596 ((Wp_fromString "SHPL" false)) (fun v17 => 
    chk 1597 (Ok (has_value v17)) (
    chk 1598 (let! v18 := deref v17 in Ok (WpQualifier_beq (Wp_qualifier v18) Q_NONE)) (
    chk 1599 (let! v19 := deref v17 in Ok (WpDescriptor_beq (Wp_descriptor v19) D_SHOWERS)) (
    chk 1600 (let! v20 := deref v17 in Ok (N.eqb (N.of_nat (List.length (Wp_weather v20))) 1%N)) (
    chk 1601 (let! v21 := deref v17 in let! v22 := deref (List.nth_error (Wp_weather v21) 0%nat) in Ok (WpWeather_beq v22 W_ICE_PELLETS)) (
    chk 1602 (let! v23 := deref v17 in Ok (WpEvent_beq (Wp_event v23) Ev_NONE)) (
    chk 1603 (let! v24 := deref v17 in Ok (negb (has_value (wpTm v24)))) (
    step 1605 ((Wp_fromString "SHGR" false)) (fun v25 => 
    chk 1606 (Ok (has_value v25)) (
    chk 1607 (let! v26 := deref v25 in Ok (WpQualifier_beq (Wp_qualifier v26) Q_NONE)) (
    chk 1608 (let! v27 := deref v25 in Ok (WpDescriptor_beq (Wp_descriptor v27) D_SHOWERS)) (
    chk 1609 (let! v28 := deref v25 in Ok (N.eqb (N.of_nat (List.length (Wp_weather v28))) 1%N)) (
    chk 1610 (let! v29 := deref v25 in let! v30 := deref (List.nth_error (Wp_weather v29) 0%nat) in Ok (WpWeather_beq v30 W_HAIL)) (
    chk 1611 (let! v31 := deref v25 in Ok (WpEvent_beq (Wp_event v31) Ev_NONE)) (
    chk 1612 (let! v32 := deref v25 in Ok (negb (has_value (wpTm v32)))) (
    step 1614 ((Wp_fromString "SHGS" false)) (fun v33 => 
    chk 1615 (Ok (has_value v33)) (
    chk 1616 (let! v34 := deref v33 in Ok (WpQualifier_beq (Wp_qualifier v34) Q_NONE)) (
    chk 1617 (let! v35 := deref v33 in Ok (WpDescriptor_beq (Wp_descriptor v35) D_SHOWERS)) (
    chk 1618 (let! v36 := deref v33 in Ok (N.eqb (N.of_nat (List.length (Wp_weather v36))) 1%N)) (
    chk 1619 (let! v37 := deref v33 in let! v38 := deref (List.nth_error (Wp_weather v37) 0%nat) in Ok (WpWeather_beq v38 W_SMALL_HAIL)) (
    chk 1620 (let! v39 := deref v33 in Ok (WpEvent_beq (Wp_event v39) Ev_NONE)) (
    chk 1621 (let! v40 := deref v33 in Ok (negb (has_value (wpTm v40)))) (
    step 1623 ((Wp_fromString "SHUP" false)) (fun v41 => 
    chk 1624 (Ok (has_value v41)) (
    chk 1625 (let! v42 := deref v41 in Ok (WpQualifier_beq (Wp_qualifier v42) Q_NONE)) (
    chk 1626 (let! v43 := deref v41 in Ok (WpDescriptor_beq (Wp_descriptor v43) D_SHOWERS)) (
    chk 1627 (let! v44 := deref v41 in Ok (N.eqb (N.of_nat (List.length (Wp_weather v44))) 1%N)) (
    chk 1628 (let! v45 := deref v41 in let! v46 := deref (List.nth_error (Wp_weather v45) 0%nat) in Ok (WpWeather_beq v46 W_UNDETERMINED)) (
    chk 1629 (let! v47 := deref v41 in Ok (WpEvent_beq (Wp_event v47) Ev_NONE)) (
    chk 1630 (let! v48 := deref v41 in Ok (negb (has_value (wpTm v48)))) (
    None)))))))))))))))))))))))))))))))))))))))))))))))).

Definition t_WeatherPhenomena_fromString_precipitation_descriptorSH_incorrect : option N :=
    chk 1634 (let! v1 := (Wp_fromString "SHDZ" false) in Ok (negb (has_value v1))) (
    chk 1635 (let! v2 := (Wp_fromString "SHSG" false) in Ok (negb (has_value v2))) (
    chk 1637 (let! v3 := (Wp_fromString "VCSHDZ" false) in Ok (negb (has_value v3))) (
    chk 1638 (let! v4 := (Wp_fromString "VCSHRA" false) in Ok (negb (has_value v4))) (
    chk 1639 (let! v5 := (Wp_fromString "VCSHSN" false) in Ok (negb (has_value v5))) (
    chk 1640 (let! v6 := (Wp_fromString "VCSHPL" false) in Ok (negb (has_value v6))) (
    chk 1641 (let! v7 := (Wp_fromString "VCSHSG" false) in Ok (negb (has_value v7))) (
    chk 1642 (let! v8 := (Wp_fromString "VCSHGR" false) in Ok (negb (has_value v8))) (
    chk 1643 (let! v9 := (Wp_fromString "VCSHGS" false) in Ok (negb (has_value v9))) (
    chk 1644 (let! v10 := (Wp_fromString "VCSHUP" false) in Ok (negb (has_value v10))) (
    None)))))))))).

Definition t_WeatherPhenomena_fromString_precipitation_descriptorSH_mixed : option N :=
    step 1648 ((Wp_fromString "SHPLSG" true)) (fun v1 => 
    chk 1649 (Ok (has_value v1)) (
    chk 1650 (let! v2 := deref v1 in Ok (WpQualifier_beq (Wp_qualifier v2) Q_MODERATE)) (
    chk 1651 (let! v3 := deref v1 in Ok (WpDescriptor_beq (Wp_descriptor v3) D_SHOWERS)) (
    chk 1652 (let! v4 := deref v1 in Ok (N.eqb (N.of_nat (List.length (Wp_weather v4))) 2%N)) (
    chk 1653 (let! v5 := deref v1 in let! v6 := deref (List.nth_error (Wp_weather v5) 0%nat) in Ok (WpWeather_beq v6 W_ICE_PELLETS)) (
    chk 1654 (let! v7 := deref v1 in let! v8 := deref (List.nth_error (Wp_weather v7) 1%nat) in Ok (WpWeather_beq v8 W_SNOW_GRAINS)) (
    chk 1655 (let! v9 := deref v1 in Ok (WpEvent_beq (Wp_event v9) Ev_NONE)) (
    chk 1656 (let! v10 := deref v1 in Ok (negb (has_value (wpTm v10)))) (
    None))))))))).

Definition t_WeatherPhenomena_fromString_precipitation_descriptor_sh_qualifier : option N :=
    step 1666 ((Wp_fromString "SHRA" true)) (fun v1 => 
    chk 1667 (Ok (has_value v1)) (
    chk 1668 (let! v2 := deref v1 in Ok (WpQualifier_beq (Wp_qualifier v2) Q_MODERATE)) (
    chk 1669 (let! v3 := deref v1 in Ok (WpDescriptor_beq (Wp_descriptor v3) D_SHOWERS)) (
    chk 1670 (let! v4 := deref v1 in Ok (N.eqb (N.of_nat (List.length (Wp_weather v4))) 1%N)) (
    chk 1671 (let! v5 := deref v1 in let! v6 := deref (List.nth_error (Wp_weather v5) 0%nat) in Ok (WpWeather_beq v6 W_RAIN)) (
    chk 1672 (let! v7 := deref v1 in Ok (WpEvent_beq (Wp_event v7) Ev_NONE)) (
    chk 1673 (let! v8 := deref v1 in Ok (negb (has_value (wpTm v8)))) (
    step 1675 ((Wp_fromString "+SHRA" true)) (fun v9 => 
    chk 1676 (Ok (has_value v9)) (
    chk 1677 (let! v10 := deref v9 in Ok (WpQualifier_beq (Wp_qualifier v10) Q_HEAVY)) (
    chk 1678 (let! v11 := deref v9 in Ok (WpDescriptor_beq (Wp_descriptor v11) D_SHOWERS)) (
    chk 1679 (let! v12 := deref v9 in Ok (N.eqb (N.of_nat (List.length (Wp_weather v12))) 1%N)) (
    chk 1680 (let! v13 := deref v9 in let! v14 := deref (List.nth_error (Wp_weather v13) 0%nat) in Ok (WpWeather_beq v14 W_RAIN)) (
    chk 1681 (let! v15 := deref v9 in Ok (WpEvent_beq (Wp_event v15) Ev_NONE)) (
    chk 1682 (let! v16 := deref v9 in Ok (negb (has_value (wpTm v16)))) (
    step 1684 ((Wp_fromString "-SHRA" true)) (fun v17 => 
    chk 1685 (Ok (has_value v17)) (
    chk 1686 (let! v18 := deref v17 in Ok (WpQualifier_beq (Wp_qualifier v18) Q_LIGHT)) (
    chk 1687 (let! v19 := deref v17 in Ok (WpDescriptor_beq (Wp_descriptor v19) D_SHOWERS)) (
    chk 1688 (let! v20 := deref v17 in Ok (N.eqb (N.of_nat (List.length (Wp_weather v20))) 1%N)) (
    chk 1689 (let! v21 := deref v17 in let! v22 := deref (List.nth_error (Wp_weather v21) 0%nat) in Ok (WpWeather_beq v22 W_RAIN)) (
    chk 1690 (let! v23 := deref v17 in Ok (WpEvent_beq (Wp_event v23) Ev_NONE)) (
    chk 1691 (let! v24 := deref v17 in Ok (negb (has_value (wpTm v24)))) (
    step 1693 ((Wp_fromString "RESHRA" true)) (fun v25 => 
    chk 1694 (Ok (has_value v25)) (
    chk 1695 (let! v26 := deref v25 in Ok (WpQualifier_beq (Wp_qualifier v26) Q_RECENT)) (
    chk 1696 (let! v27 := deref v25 in Ok (WpDescriptor_beq (Wp_descriptor v27) D_SHOWERS)) (
    chk 1697 (let! v28 := deref v25 in Ok (N.eqb (N.of_nat (List.length (Wp_weather v28))) 1%N)) (
    chk 1698 (let! v29 := deref v25 in let! v30 := deref (List.nth_error (Wp_weather v29) 0%nat) in Ok (WpWeather_beq v30 W_RAIN)) (
    chk 1699 (let! v31 := deref v25 in Ok (WpEvent_beq (Wp_event v31) Ev_NONE)) (
    chk 1700 (let! v32 := deref v25 in Ok (negb (has_value (wpTm v32)))) (
    step 1702 ((Wp_fromString "SHUP" true)) (fun v33 => 
    chk 1703 (Ok (has_value v33)) (
    chk 1704 (let! v34 := deref v33 in Ok (WpQualifier_beq (Wp_qualifier v34) Q_MODERATE)) (
    chk 1705 (let! v35 := deref v33 in Ok (WpDescriptor_beq (Wp_descriptor v35) D_SHOWERS)) (
    chk 1706 (let! v36 := deref v33 in Ok (N.eqb (N.of_nat (List.length (Wp_weather v36))) 1%N)) (
    chk 1707 (let! v37 := deref v33 in let! v38 := deref (List.nth_error (Wp_weather v37) 0%nat) in Ok (WpWeather_beq v38 W_UNDETERMINED)) (
    chk 1708 (let! v39 := deref v33 in Ok (WpEvent_beq (Wp_event v39) Ev_NONE)) (
    chk 1709 (let! v40 := deref v33 in Ok (negb (has_value (wpTm v40)))) (
    step 1711 ((Wp_fromString "+SHUP" true)) (fun v41 => 
    chk 1712 (Ok (has_value v41)) (
    chk 1713 (let! v42 := deref v41 in Ok (WpQualifier_beq (Wp_qualifier v42) Q_HEAVY)) (
    chk 1714 (let! v43 := deref v41 in Ok (WpDescriptor_beq (Wp_descriptor v43) D_SHOWERS)) (
    chk 1715 (let! v44 := deref v41 in Ok (N.eqb (N.of_nat (List.length (Wp_weather v44))) 1%N)) (
    chk 1716 (let! v45 := deref v41 in let! v46 := deref (List.nth_error (Wp_weather v45) 0%nat) in Ok (WpWeather_beq v46 W_UNDETERMINED)) (
    chk 1717 (let! v47 := deref v41 in Ok (WpEvent_beq (Wp_event v47) Ev_NONE)) (
    chk 1718 (let! v48 := deref v41 in Ok (negb (has_value (wpTm v48)))) (
    step 1720 ((Wp_fromString "-SHUP" true)) (fun v49 => 
    chk 1721 (Ok (has_value v49)) (
    chk 1722 (let! v50 := deref v49 in Ok (WpQualifier_beq (Wp_qualifier v50) Q_LIGHT)) (
    chk 1723 (let! v51 := deref v49 in Ok (WpDescriptor_beq (Wp_descriptor v51) D_SHOWERS)) (
    chk 1724 (let! v52 := deref v49 in Ok (N.eqb (N.of_nat (List.length (Wp_weather v52))) 1%N)) (
    chk 1725 (let! v53 := deref v49 in let! v54 := deref (List.nth_error (Wp_weather v53) 0%nat) in Ok (WpWeather_beq v54 W_UNDETERMINED)) (
    chk 1726 (let! v55 := deref v49 in Ok (WpEvent_beq (Wp_event v55) Ev_NONE)) (
    chk 1727 (let! v56 := deref v49 in Ok (negb (has_value (wpTm v56)))) (
    step 1729 ((Wp_fromString "RESHUP" true)) (fun v57 => 
    chk 1730 (Ok (has_value v57)) (
    chk 1731 (let! v58 := deref v57 in Ok (WpQualifier_beq (Wp_qualifier v58) Q_RECENT)) (
    chk 1732 (let! v59 := deref v57 in Ok (WpDescriptor_beq (Wp_descriptor v59) D_SHOWERS)) (
    chk 1733 (let! v60 := deref v57 in Ok (N.eqb (N.of_nat (List.length (Wp_weather v60))) 1%N)) (
    chk 1734 (let! v61 := deref v57 in let! v62 := deref (List.nth_error (Wp_weather v61) 0%nat) in Ok (WpWeather_beq v62 W_UNDETERMINED)) (
    chk 1735 (let! v63 := deref v57 in Ok (WpEvent_beq (Wp_event v63) Ev_NONE)) (
    chk 1736 (let! v64 := deref v57 in Ok (negb (has_value (wpTm v64)))) (
    None)))))))))))))))))))))))))))))))))))))))))))))))))))))))))))))))).

Definition t_WeatherPhenomena_fromString_precipitation_descriptor_sh_mixed_qualifier : option N :=
    step 1740 ((Wp_fromString "SHRASN" false)) (fun v1 => 
    chk 1741 (Ok (has_value v1)) (
    chk 1742 (let! v2 := deref v1 in Ok (WpQualifier_beq (Wp_qualifier v2) Q_NONE)) (
    chk 1743 (let! v3 := deref v1 in Ok (WpDescriptor_beq (Wp_descriptor v3) D_SHOWERS)) (
    chk 1744 (let! v4 := deref v1 in Ok (N.eqb (N.of_nat (List.length (Wp_weather v4))) 2%N)) (
    chk 1745 (let! v5 := deref v1 in let! v6 := deref (List.nth_error (Wp_weather v5) 0%nat) in Ok (WpWeather_beq v6 W_RAIN)) (
    chk 1746 (let! v7 := deref v1 in let! v8 := deref (List.nth_error (Wp_weather v7) 1%nat) in Ok (WpWeather_beq v8 W_SNOW)) (
    chk 1747 (let! v9 := deref v1 in Ok (WpEvent_beq (Wp_event v9) Ev_NONE)) (
    chk 1748 (let! v10 := deref v1 in Ok (negb (has_value (wpTm v10)))) (
    step 1750 ((Wp_fromString "SHRASN" true)) (fun v11 => 
    chk 1751 (Ok (has_value v11)) (
    chk 1752 (let! v12 := deref v11 in Ok (WpQualifier_beq (Wp_qualifier v12) Q_MODERATE)) (
    chk 1753 (let! v13 := deref v11 in Ok (WpDescriptor_beq (Wp_descriptor v13) D_SHOWERS)) (
    chk 1754 (let! v14 := deref v11 in Ok (N.eqb (N.of_nat (List.length (Wp_weather v14))) 2%N)) (
    chk 1755 (let! v15 := deref v11 in let! v16 := deref (List.nth_error (Wp_weather v15) 0%nat) in Ok (WpWeather_beq v16 W_RAIN)) (
    chk 1756 (let! v17 := deref v11 in let! v18 := deref (List.nth_error (Wp_weather v17) 1%nat) in Ok (WpWeather_beq v18 W_SNOW)) (
    chk 1757 (let! v19 := deref v11 in Ok (WpEvent_beq (Wp_event v19) Ev_NONE)) (
    chk 1758 (let! v20 := deref v11 in Ok (negb (has_value (wpTm v20)))) (
    step 1760 ((Wp_fromString "-SHRASN" true)) (fun v21 => 
    chk 1761 (Ok (has_value v21)) (
    chk 1762 (let! v22 := deref v21 in Ok (WpQualifier_beq (Wp_qualifier v22) Q_LIGHT)) (
    chk 1763 (let! v23 := deref v21 in Ok (WpDescriptor_beq (Wp_descriptor v23) D_SHOWERS)) (
    chk 1764 (let! v24 := deref v21 in Ok (N.eqb (N.of_nat (List.length (Wp_weather v24))) 2%N)) (
    chk 1765 (let! v25 := deref v21 in let! v26 := deref (List.nth_error (Wp_weather v25) 0%nat) in Ok (WpWeather_beq v26 W_RAIN)) (
    chk 1766 (let! v27 := deref v21 in let! v28 := deref (List.nth_error (Wp_weather v27) 1%nat) in Ok (WpWeather_beq v28 W_SNOW)) (
    chk 1767 (let! v29 := deref v21 in Ok (WpEvent_beq (Wp_event v29) Ev_NONE)) (
    chk 1768 (let! v30 := deref v21 in Ok (negb (has_value (wpTm v30)))) (
    step 1770 ((Wp_fromString "+SHRASN" true)) (fun v31 => 
    chk 1771 (Ok (has_value v31)) (
    chk 1772 (let! v32 := deref v31 in Ok (WpQualifier_beq (Wp_qualifier v32) Q_HEAVY)) (
    chk 1773 (let! v33 := deref v31 in Ok (WpDescriptor_beq (Wp_descriptor v33) D_SHOWERS)) (
    chk 1774 (let! v34 := deref v31 in Ok (N.eqb (N.of_nat (List.length (Wp_weather v34))) 2%N)) (
    chk 1775 (let! v35 := deref v31 in let! v36 := deref (List.nth_error (Wp_weather v35) 0%nat) in Ok (WpWeather_beq v36 W_RAIN)) (
    chk 1776 (let! v37 := deref v31 in let! v38 := deref (List.nth_error (Wp_weather v37) 1%nat) in Ok (WpWeather_beq v38 W_SNOW)) (
    chk 1777 (let! v39 := deref v31 in Ok (WpEvent_beq (Wp_event v39) Ev_NONE)) (
    chk 1778 (let! v40 := deref v31 in Ok (negb (has_value (wpTm v40)))) (
    step 1780 ((Wp_fromString "RESHRASN" true)) (fun v41 => 
    chk 1781 (Ok (has_value v41)) (
    chk 1782 (let! v42 := deref v41 in Ok (WpQualifier_beq (Wp_qualifier v42) Q_RECENT)) (
    chk 1783 (let! v43 := deref v41 in Ok (WpDescriptor_beq (Wp_descriptor v43) D_SHOWERS)) (
    chk 1784 (let! v44 := deref v41 in Ok (N.eqb (N.of_nat (List.length (Wp_weather v44))) 2%N)) (
    chk 1785 (let! v45 := deref v41 in let! v46 := deref (List.nth_error (Wp_weather v45) 0%nat) in Ok (WpWeather_beq v46 W_RAIN)) (
    chk 1786 (let! v47 := deref v41 in let! v48 := deref (List.nth_error (Wp_weather v47) 1%nat) in Ok (WpWeather_beq v48 W_SNOW)) (
    chk 1787 (let! v49 := deref v41 in Ok (WpEvent_beq (Wp_event v49) Ev_NONE)) (
    chk 1788 (let! v50 := deref v41 in Ok (negb (has_value (wpTm v50)))) (
    None))))))))))))))))))))))))))))))))))))))))))))).

Definition t_WeatherPhenomena_fromString_precipitation_descriptor_fz : option N :=
    step 1799 ((Wp_fromString "FZRA" true)) (fun v1 => 
    chk 1800 (Ok (has_value v1)) (
    chk 1801 (let! v2 := deref v1 in Ok (WpQualifier_beq (Wp_qualifier v2) Q_MODERATE)) (
    chk 1802 (let! v3 := deref v1 in Ok (WpDescriptor_beq (Wp_descriptor v3) D_FREEZING)) (
    chk 1803 (let! v4 := deref v1 in Ok (N.eqb (N.of_nat (List.length (Wp_weather v4))) 1%N)) (
    chk 1804 (let! v5 := deref v1 in let! v6 := deref (List.nth_error (Wp_weather v5) 0%nat) in Ok (WpWeather_beq v6 W_RAIN)) (
    chk 1805 (let! v7 := deref v1 in Ok (WpEvent_beq (Wp_event v7) Ev_NONE)) (
    chk 1806 (let! v8 := deref v1 in Ok (negb (has_value (wpTm v8)))) (
    step 1808 ((Wp_fromString "FZDZ" true)) (fun v9 => 
    chk 1809 (Ok (has_value v9)) (
    chk 1810 (let! v10 := deref v9 in Ok (WpQualifier_beq (Wp_qualifier v10) Q_MODERATE)) (
    chk 1811 (let! v11 := deref v9 in Ok (WpDescriptor_beq (Wp_descriptor v11) D_FREEZING)) (
    chk 1812 (let! v12 := deref v9 in Ok (N.eqb (N.of_nat (List.length (Wp_weather v12))) 1%N)) (
    chk 1813 (let! v13 := deref v9 in let! v14 := deref (List.nth_error (Wp_weather v13) 0%nat) in Ok (WpWeather_beq v14 W_DRIZZLE)) (
    chk 1814 (let! v15 := deref v9 in Ok (WpEvent_beq (Wp_event v15) Ev_NONE)) (
    chk 1815 (let! v16 := deref v9 in Ok (negb (has_value (wpTm v16)))) (
    step 1817 ((Wp_fromString "FZUP" true)) (fun v17 => 
    chk 1818 (Ok (has_value v17)) (
    chk 1819 (let! v18 := deref v17 in Ok (WpQualifier_beq (Wp_qualifier v18) Q_MODERATE)) (
    chk 1820 (let! v19 := deref v17 in Ok (WpDescriptor_beq (Wp_descriptor v19) D_FREEZING)) (
    chk 1821 (let! v20 := deref v17 in Ok (N.eqb (N.of_nat (List.length (Wp_weather v20))) 1%N)) (
    chk 1822 (let! v21 := deref v17 in let! v22 := deref (List.nth_error (Wp_weather v21) 0%nat) in Ok (WpWeather_beq v22 W_UNDETERMINED)) (
    chk 1823 (let! v23 := deref v17 in Ok (WpEvent_beq (Wp_event v23) Ev_NONE)) (
    chk 1824 (let! v24 := deref v17 in Ok (negb (has_value (wpTm v24)))) (
    None)))))))))))))))))))))))).

Definition t_WeatherPhenomena_fromString_precipitation_descriptor_fz_multpiple : option N :=
    step 1828 ((Wp_fromString "FZRASN" false)) (fun v1 => 
    chk 1829 (Ok (has_value v1)) (
    chk 1830 (let! v2 := deref v1 in Ok (WpQualifier_beq (Wp_qualifier v2) Q_NONE)) (
    chk 1831 (let! v3 := deref v1 in Ok (WpDescriptor_beq (Wp_descriptor v3) D_FREEZING)) (
    chk 1832 (let! v4 := deref v1 in Ok (N.eqb (N.of_nat (List.length (Wp_weather v4))) 2%N)) (
    chk 1833 (let! v5 := deref v1 in let! v6 := deref (List.nth_error (Wp_weather v5) 0%nat) in Ok (WpWeather_beq v6 W_RAIN)) (
    chk 1834 (let! v7 := deref v1 in let! v8 := deref (List.nth_error (Wp_weather v7) 1%nat) in Ok (WpWeather_beq v8 W_SNOW)) (
    chk 1835 (let! v9 := deref v1 in Ok (WpEvent_beq (Wp_event v9) Ev_NONE)) (
    chk 1836 (let! v10 := deref v1 in Ok (negb (has_value (wpTm v10)))) (
    step 1838 ((Wp_fromString "FZDZPL" false)) (fun v11 => 
    chk 1839 (Ok (has_value v11)) (
    chk 1840 (let! v12 := deref v11 in Ok (WpQualifier_beq (Wp_qualifier v12) Q_NONE)) (
    chk 1841 (let! v13 := deref v11 in Ok (WpDescriptor_beq (Wp_descriptor v13) D_FREEZING)) (
    chk 1842 (let! v14 := deref v11 in Ok (N.eqb (N.of_nat (List.length (Wp_weather v14))) 2%N)) (
    chk 1843 (let! v15 := deref v11 in let! v16 := deref (List.nth_error (Wp_weather v15) 0%nat) in Ok (WpWeather_beq v16 W_DRIZZLE)) (
    chk 1844 (let! v17 := deref v11 in let! v18 := deref (List.nth_error (Wp_weather v17) 1%nat) in Ok (WpWeather_beq v18 W_ICE_PELLETS)) (
    chk 1845 (let! v19 := deref v11 in Ok (WpEvent_beq (Wp_event v19) Ev_NONE)) (
    chk 1846 (let! v20 := deref v11 in Ok (negb (has_value (wpTm v20)))) (
    None)))))))))))))))))).

Definition t_WeatherPhenomena_fromString_precipitation_descriptor_fz_incorrect : option N :=
    chk 1850 (let! v1 := (Wp_fromString "FZSN" false) in Ok (negb (has_value v1))) (
    chk 1851 (let! v2 := (Wp_fromString "FZSG" false) in Ok (negb (has_value v2))) (
    chk 1852 (let! v3 := (Wp_fromString "FZPL" false) in Ok (negb (has_value v3))) (
    chk 1853 (let! v4 := (Wp_fromString "FZSG" false) in Ok (negb (has_value v4))) (
    chk 1854 (let! v5 := (Wp_fromString "FZGR" false) in Ok (negb (has_value v5))) (
    chk 1855 (let! v6 := (Wp_fromString "FZGS" false) in Ok (negb (has_value v6))) (
    chk 1857 (let! v7 := (Wp_fromString "FZSNPLGS" false) in Ok (negb (has_value v7))) (
    chk 1858 (let! v8 := (Wp_fromString "FZSNGR" false) in Ok (negb (has_value v8))) (
    chk 1859 (let! v9 := (Wp_fromString "FZSNSG" false) in Ok (negb (has_value v9))) (
    chk 1861 (let! v10 := (Wp_fromString "VCFZRA" false) in Ok (negb (has_value v10))) (
    chk 1862 (let! v11 := (Wp_fromString "VCFZDZ" false) in Ok (negb (has_value v11))) (
    chk 1863 (let! v12 := (Wp_fromString "VCFZUP" false) in Ok (negb (has_value v12))) (
    None)))))))))))).

Definition t_WeatherPhenomena_fromString_precipitation_descriptor_fz_qualifier : option N :=
    step 1873 ((Wp_fromString "FZRA" false)) (fun v1 => 
    chk 1874 (Ok (has_value v1)) (
    chk 1875 (let! v2 := deref v1 in Ok (WpQualifier_beq (Wp_qualifier v2) Q_NONE)) (
    chk 1876 (let! v3 := deref v1 in Ok (WpDescriptor_beq (Wp_descriptor v3) D_FREEZING)) (
    chk 1877 (let! v4 := deref v1 in Ok (N.eqb (N.of_nat (List.length (Wp_weather v4))) 1%N)) (
    chk 1878 (let! v5 := deref v1 in let! v6 := deref (List.nth_error (Wp_weather v5) 0%nat) in Ok (WpWeather_beq v6 W_RAIN)) (
    chk 1879 (let! v7 := deref v1 in Ok (WpEvent_beq (Wp_event v7) Ev_NONE)) (
    chk 1880 (let! v8 := deref v1 in Ok (negb (has_value (wpTm v8)))) (
    step 1882 ((Wp_fromString "FZRA" true)) (fun v9 => 
    chk 1883 (Ok (has_value v9)) (
    chk 1884 (let! v10 := deref v9 in Ok (WpQualifier_beq (Wp_qualifier v10) Q_MODERATE)) (
    chk 1885 (let! v11 := deref v9 in Ok (WpDescriptor_beq (Wp_descriptor v11) D_FREEZING)) (
    chk 1886 (let! v12 := deref v9 in Ok (N.eqb (N.of_nat (List.length (Wp_weather v12))) 1%N)) (
    chk 1887 (let! v13 := deref v9 in let! v14 := deref (List.nth_error (Wp_weather v13) 0%nat) in Ok (WpWeather_beq v14 W_RAIN)) (
    chk 1888 (let! v15 := deref v9 in Ok (WpEvent_beq (Wp_event v15) Ev_NONE)) (
    chk 1889 (let! v16 := deref v9 in Ok (negb (has_value (wpTm v16)))) (
    step 1891 ((Wp_fromString "-FZRA" true)) (fun v17 => 
    chk 1892 (Ok (has_value v17)) (
    chk 1893 (let! v18 := deref v17 in Ok (WpQualifier_beq (Wp_qualifier v18) Q_LIGHT)) (
    chk 1894 (let! v19 := deref v17 in Ok (WpDescriptor_beq (Wp_descriptor v19) D_FREEZING)) (
    chk 1895 (let! v20 := deref v17 in Ok (N.eqb (N.of_nat (List.length (Wp_weather v20))) 1%N)) (
    chk 1896 (let! v21 := deref v17 in let! v22 := deref (List.nth_error (Wp_weather v21) 0%nat) in Ok (WpWeather_beq v22 W_RAIN)) (
    chk 1897 (let! v23 := deref v17 in Ok (WpEvent_beq (Wp_event v23) Ev_NONE)) (
    chk 1898 (let! v24 := deref v17 in Ok (negb (has_value (wpTm v24)))) (
    step 1900 ((Wp_fromString "+FZRA" true)) (fun v25 => 
    chk 1901 (Ok (has_value v25)) (
    chk 1902 (let! v26 := deref v25 in Ok (WpQualifier_beq (Wp_qualifier v26) Q_HEAVY)) (
    chk 1903 (let! v27 := deref v25 in Ok (WpDescriptor_beq (Wp_descriptor v27) D_FREEZING)) (
    chk 1904 (let! v28 := deref v25 in Ok (N.eqb (N.of_nat (List.length (Wp_weather v28))) 1%N)) (
    chk 1905 (let! v29 := deref v25 in let! v30 := deref (List.nth_error (Wp_weather v29) 0%nat) in Ok (WpWeather_beq v30 W_RAIN)) (
    chk 1906 (let! v31 := deref v25 in Ok (WpEvent_beq (Wp_event v31) Ev_NONE)) (
    chk 1907 (let! v32 := deref v25 in Ok (negb (has_value (wpTm v32)))) (
    step 1909 ((Wp_fromString "REFZRA" true)) (fun v33 => 
    chk 1910 (Ok (has_value v33)) (
    chk 1911 (let! v34 := deref v33 in Ok (WpQualifier_beq (Wp_qualifier v34) Q_RECENT)) (
    chk 1912 (let! v35 := deref v33 in Ok (WpDescriptor_beq (Wp_descriptor v35) D_FREEZING)) (
    chk 1913 (let! v36 := deref v33 in Ok (N.eqb (N.of_nat (List.length (Wp_weather v36))) 1%N)) (
    chk 1914 (let! v37 := deref v33 in let! v38 := deref (List.nth_error (Wp_weather v37) 0%nat) in Ok (WpWeather_beq v38 W_RAIN)) (
    chk 1915 (let! v39 := deref v33 in Ok (WpEvent_beq (Wp_event v39) Ev_NONE)) (
    chk 1916 (let! v40 := deref v33 in Ok (negb (has_value (wpTm v40)))) (
    None)))))))))))))))))))))))))))))))))))))))).

Definition t_WeatherPhenomena_fromString_precipitation_descriptor_fz_mixed_qualifier : option N :=
    step 1920 ((Wp_fromString "FZDZPL" false)) (fun v1 => 
    chk 1921 (Ok (has_value v1)) (
    chk 1922 (let! v2 := deref v1 in Ok (WpQualifier_beq (Wp_qualifier v2) Q_NONE)) (
    chk 1923 (let! v3 := deref v1 in Ok (WpDescriptor_beq (Wp_descriptor v3) D_FREEZING)) (
    chk 1924 (let! v4 := deref v1 in Ok (N.eqb (N.of_nat (List.length (Wp_weather v4))) 2%N)) (
    chk 1925 (let! v5 := deref v1 in let! v6 := deref (List.nth_error (Wp_weather v5) 0%nat) in Ok (WpWeather_beq v6 W_DRIZZLE)) (
    chk 1926 (let! v7 := deref v1 in let! v8 := deref (List.nth_error (Wp_weather v7) 1%nat) in Ok (WpWeather_beq v8 W_ICE_PELLETS)) (
    chk 1927 (let! v9 := deref v1 in Ok (WpEvent_beq (Wp_event v9) Ev_NONE)) (
    chk 1928 (let! v10 := deref v1 in Ok (negb (has_value (wpTm v10)))) (
    step 1930 ((Wp_fromString "FZDZPL" true)) (fun v11 => 
    chk 1931 (Ok (has_value v11)) (
    chk 1932 (let! v12 := deref v11 in Ok (WpQualifier_beq (Wp_qualifier v12) Q_MODERATE)) (
    chk 1933 (let! v13 := deref v11 in Ok (WpDescriptor_beq (Wp_descriptor v13) D_FREEZING)) (
    chk 1934 (let! v14 := deref v11 in Ok (N.eqb (N.of_nat (List.length (Wp_weather v14))) 2%N)) (
    chk 1935 (let! v15 := deref v11 in let! v16 := deref (List.nth_error (Wp_weather v15) 0%nat) in Ok (WpWeather_beq v16 W_DRIZZLE)) (
    chk 1936 (let! v17 := deref v11 in let! v18 := deref (List.nth_error (Wp_weather v17) 1%nat) in Ok (WpWeather_beq v18 W_ICE_PELLETS)) (
    chk 1937 (let! v19 := deref v11 in Ok (WpEvent_beq (Wp_event v19) Ev_NONE)) (
    chk 1938 (let! v20 := deref v11 in Ok (negb (has_value (wpTm v20)))) (
    step 1940 ((Wp_fromString "-FZDZPL" true)) (fun v21 => 
    chk 1941 (Ok (has_value v21)) (
    chk 1942 (let! v22 := deref v21 in Ok (WpQualifier_beq (Wp_qualifier v22) Q_LIGHT)) (
    chk 1943 (let! v23 := deref v21 in Ok (WpDescriptor_beq (Wp_descriptor v23) D_FREEZING)) (
    chk 1944 (let! v24 := deref v21 in Ok (N.eqb (N.of_nat (List.length (Wp_weather v24))) 2%N)) (
    chk 1945 (let! v25 := deref v21 in let! v26 := deref (List.nth_error (Wp_weather v25) 0%nat) in Ok (WpWeather_beq v26 W_DRIZZLE)) (
    chk 1946 (let! v27 := deref v21 in let! v28 := deref (List.nth_error (Wp_weather v27) 1%nat) in Ok (WpWeather_beq v28 W_ICE_PELLETS)) (
    chk 1947 (let! v29 := deref v21 in Ok (WpEvent_beq (Wp_event v29) Ev_NONE)) (
    chk 1948 (let! v30 := deref v21 in Ok (negb (has_value (wpTm v30)))) (
    step 1950 ((Wp_fromString "+FZDZPL" true)) (fun v31 => 
    chk 1951 (Ok (has_value v31)) (
    chk 1952 (let! v32 := deref v31 in Ok (WpQualifier_beq (Wp_qualifier v32) Q_HEAVY)) (
    chk 1953 (let! v33 := deref v31 in Ok (WpDescriptor_beq (Wp_descriptor v33) D_FREEZING)) (
    chk 1954 (let! v34 := deref v31 in Ok (N.eqb (N.of_nat (List.length (Wp_weather v34))) 2%N)) (
    chk 1955 (let! v35 := deref v31 in let! v36 := deref (List.nth_error (Wp_weather v35) 0%nat) in Ok (WpWeather_beq v36 W_DRIZZLE)) (
    chk 1956 (let! v37 := deref v31 in let! v38 := deref (List.nth_error (Wp_weather v37) 1%nat) in Ok (WpWeather_beq v38 W_ICE_PELLETS)) (
    chk 1957 (let! v39 := deref v31 in Ok (WpEvent_beq (Wp_event v39) Ev_NONE)) (
    chk 1958 (let! v40 := deref v31 in Ok (negb (has_value (wpTm v40)))) (
    step 1960 ((Wp_fromString "FZUP" true)) (fun v41 => 
    chk 1961 (Ok (has_value v41)) (
    chk 1962 (let! v42 := deref v41 in Ok (WpQualifier_beq (Wp_qualifier v42) Q_MODERATE)) (
    chk 1963 (let! v43 := deref v41 in Ok (WpDescriptor_beq (Wp_descriptor v43) D_FREEZING)) (
    chk 1964 (let! v44 := deref v41 in Ok (N.eqb (N.of_nat (List.length (Wp_weather v44))) 1%N)) (
    chk 1965 (let! v45 := deref v41 in let! v46 := deref (List.nth_error (Wp_weather v45) 0%nat) in Ok (WpWeather_beq v46 W_UNDETERMINED)) (
    chk 1966 (let! v47 := deref v41 in Ok (WpEvent_beq (Wp_event v47) Ev_NONE)) (
    chk 1967 (let! v48 := deref v41 in Ok (negb (has_value (wpTm v48)))) (
    step 1969 ((Wp_fromString "+FZUP" true)) (fun v49 => 
    chk 1970 (Ok (has_value v49)) (
    chk 1971 (let! v50 := deref v49 in Ok (WpQualifier_beq (Wp_qualifier v50) Q_HEAVY)) (
    chk 1972 (let! v51 := deref v49 in Ok (WpDescriptor_beq (Wp_descriptor v51) D_FREEZING)) (
    chk 1973 (let! v52 := deref v49 in Ok (N.eqb (N.of_nat (List.length (Wp_weather v52))) 1%N)) (
    chk 1974 (let! v53 := deref v49 in let! v54 := deref (List.nth_error (Wp_weather v53) 0%nat) in Ok (WpWeather_beq v54 W_UNDETERMINED)) (
    chk 1975 (let! v55 := deref v49 in Ok (WpEvent_beq (Wp_event v55) Ev_NONE)) (
    chk 1976 (let! v56 := deref v49 in Ok (negb (has_value (wpTm v56)))) (
    step 1978 ((Wp_fromString "-FZUP" true)) (fun v57 => 
    chk 1979 (Ok (has_value v57)) (
    chk 1980 (let! v58 := deref v57 in Ok (WpQualifier_beq (Wp_qualifier v58) Q_LIGHT)) (
    chk 1981 (let! v59 := deref v57 in Ok (WpDescriptor_beq (Wp_descriptor v59) D_FREEZING)) (
    chk 1982 (let! v60 := deref v57 in Ok (N.eqb (N.of_nat (List.length (Wp_weather v60))) 1%N)) (
    chk 1983 (let! v61 := deref v57 in let! v62 := deref (List.nth_error (Wp_weather v61) 0%nat) in Ok (WpWeather_beq v62 W_UNDETERMINED)) (
    chk 1984 (let! v63 := deref v57 in Ok (WpEvent_beq (Wp_event v63) Ev_NONE)) (
    chk 1985 (let! v64 := deref v57 in Ok (negb (has_value (wpTm v64)))) (
    step 1987 ((Wp_fromString "REFZUP" true)) (fun v65 => 
    chk 1988 (Ok (has_value v65)) (
    chk 1989 (let! v66 := deref v65 in Ok (WpQualifier_beq (Wp_qualifier v66) Q_RECENT)) (
    chk 1990 (let! v67 := deref v65 in Ok (WpDescriptor_beq (Wp_descriptor v67) D_FREEZING)) (
    chk 1991 (let! v68 := deref v65 in Ok (N.eqb (N.of_nat (List.length (Wp_weather v68))) 1%N)) (
    chk 1992 (let! v69 := deref v65 in let! v70 := deref (List.nth_error (Wp_weather v69) 0%nat) in Ok (WpWeather_beq v70 W_UNDETERMINED)) (
    chk 1993 (let! v71 := deref v65 in Ok (WpEvent_beq (Wp_event v71) Ev_NONE)) (
    chk 1994 (let! v72 := deref v65 in Ok (negb (has_value (wpTm v72)))) (
    None)))))))))))))))))))))))))))))))))))))))))))))))))))))))))))))))))))).

Definition t_WeatherPhenomena_fromString_precipitation_descriptor_qualifier_incorrect : option N :=
    chk 2004 (let! v1 := (Wp_fromString "TSSHRA" false) in Ok (negb (has_value v1))) (
    chk 2005 (let! v2 := (Wp_fromString "SHTSRA" false) in Ok (negb (has_value v2))) (
    chk 2006 (let! v3 := (Wp_fromString "ZZRA" false) in Ok (negb (has_value v3))) (
    chk 2007 (let! v4 := (Wp_fromString "ZRA" false) in Ok (negb (has_value v4))) (
    chk 2008 (let! v5 := (Wp_fromString "++RA" false) in Ok (negb (has_value v5))) (
    chk 2009 (let! v6 := (Wp_fromString "+-RA" false) in Ok (negb (has_value v6))) (
    None)))))).

Definition t_WeatherPhenomena_fromWeatherBeginEndString_first_event : option N :=
    step 2021 ((MetafTime_fromStringDDHHMM "120830")) (fun v1 => 
    chk 2022 (Ok (has_value v1)) (
    step 2024 ((Wp_fromWeatherBeginEndString "RAB1456" MetafTime_default WeatherPhenomena_default)) (fun v2 => 
    chk 2028 (Ok (has_value v2)) (
    chk 2030 (let! v3 := deref v2 in Ok (WpQualifier_beq (Wp_qualifier v3) Q_NONE)) (
    chk 2031 (let! v4 := deref v2 in Ok (WpDescriptor_beq (Wp_descriptor v4) D_NONE)) (
    chk 2032 (let! v5 := deref v2 in Ok (N.eqb (N.of_nat (List.length (Wp_weather v5))) 1%N)) (
    chk 2033 (let! v6 := deref v2 in let! v7 := deref (List.nth_error (Wp_weather v6) 0%nat) in Ok (WpWeather_beq v7 W_RAIN)) (
    chk 2034 (let! v8 := deref v2 in Ok (WpEvent_beq (Wp_event v8) Ev_BEGINNING)) (
    chk 2035 (let! v9 := deref v2 in Ok (has_value (wpTm v9))) (
    chk 2036 (let! v10 := deref v2 in let! v11 := deref (wpTm v10) in Ok (negb (has_value (dayValue v11)))) (
    chk 2037 (let! v12 := deref v2 in let! v13 := deref (wpTm v12) in Ok (N.eqb (hourValue v13) 14%N)) (
    chk 2038 (let! v14 := deref v2 in let! v15 := deref (wpTm v14) in Ok (N.eqb (minuteValue v15) 56%N)) (
    step 2040 ((Wp_fromWeatherBeginEndString "SHRASNE0212" MetafTime_default WeatherPhenomena_default)) (fun v16 => 
    chk 2044 (Ok (has_value v16)) (
    chk 2046 (let! v17 := deref v16 in Ok (WpQualifier_beq (Wp_qualifier v17) Q_NONE)) (
    chk 2047 (let! v18 := deref v16 in Ok (WpDescriptor_beq (Wp_descriptor v18) D_SHOWERS)) (
    chk 2048 (let! v19 := deref v16 in Ok (N.eqb (N.of_nat (List.length (Wp_weather v19))) 2%N)) (
    chk 2049 (let! v20 := deref v16 in let! v21 := deref (List.nth_error (Wp_weather v20) 0%nat) in Ok (WpWeather_beq v21 W_RAIN)) (
    chk 2050 (let! v22 := deref v16 in let! v23 := deref (List.nth_error (Wp_weather v22) 1%nat) in Ok (WpWeather_beq v23 W_SNOW)) (
    chk 2051 (let! v24 := deref v16 in Ok (WpEvent_beq (Wp_event v24) Ev_ENDING)) (
    chk 2052 (let! v25 := deref v16 in Ok (has_value (wpTm v25))) (
    chk 2053 (let! v26 := deref v16 in let! v27 := deref (wpTm v26) in Ok (negb (has_value (dayValue v27)))) (
    chk 2054 (let! v28 := deref v16 in let! v29 := deref (wpTm v28) in Ok (N.eqb (hourValue v29) 2%N)) (
    chk 2055 (let! v30 := deref v16 in let! v31 := deref (wpTm v30) in Ok (N.eqb (minuteValue v31) 12%N)) (
    step 2057 (deref v1) (fun v32 => 
    step 2057 ((Wp_fromWeatherBeginEndString "TSB25" v32 WeatherPhenomena_default)) (fun v33 => 
    chk 2061 (Ok (has_value v33)) (
    chk 2063 (let! v34 := deref v33 in Ok (WpQualifier_beq (Wp_qualifier v34) Q_NONE)) (
    chk 2064 (let! v35 := deref v33 in Ok (WpDescriptor_beq (Wp_descriptor v35) D_THUNDERSTORM)) (
    chk 2065 (let! v36 := deref v33 in Ok (N.eqb (N.of_nat (List.length (Wp_weather v36))) 0%N)) (
    chk 2066 (let! v37 := deref v33 in Ok (WpEvent_beq (Wp_event v37) Ev_BEGINNING)) (
    chk 2067 (let! v38 := deref v33 in Ok (has_value (wpTm v38))) (
    chk 2068 (let! v39 := deref v33 in let! v40 := deref (wpTm v39) in Ok (negb (has_value (dayValue v40)))) (
    chk 2069 (let! v41 := deref v33 in let! v42 := deref (wpTm v41) in let! v43 := deref v1 in Ok (N.eqb (hourValue v42) (hourValue v43))) (
    chk 2070 (let! v44 := deref v33 in let! v45 := deref (wpTm v44) in Ok (N.eqb (minuteValue v45) 25%N)) (
    None)))))))))))))))))))))))))))))))))))).

Definition t_WeatherPhenomena_fromWeatherBeginEndString_subsequent : option N :=
    step 2082 ((MetafTime_fromStringDDHHMM "120830")) (fun v1 => 
    chk 2083 (Ok (has_value v1)) (
    step 2085 ((Wp_fromWeatherBeginEndString "RAB0756" MetafTime_default WeatherPhenomena_default)) (fun v2 => 
    chk 2089 (Ok (has_value v2)) (
    step 2091 (deref v2) (fun v3 => 
    step 2091 ((Wp_fromWeatherBeginEndString "E0812" MetafTime_default v3)) (fun v4 => 
    chk 2095 (Ok (has_value v4)) (
    chk 2097 (let! v5 := deref v4 in Ok (WpQualifier_beq (Wp_qualifier v5) Q_NONE)) (
    chk 2098 (let! v6 := deref v4 in Ok (WpDescriptor_beq (Wp_descriptor v6) D_NONE)) (
    chk 2099 (let! v7 := deref v4 in Ok (N.eqb (N.of_nat (List.length (Wp_weather v7))) 1%N)) (
    chk 2100 (let! v8 := deref v4 in let! v9 := deref (List.nth_error (Wp_weather v8) 0%nat) in Ok (WpWeather_beq v9 W_RAIN)) (
    chk 2101 (let! v10 := deref v4 in Ok (WpEvent_beq (Wp_event v10) Ev_ENDING)) (
    chk 2102 (let! v11 := deref v4 in Ok (has_value (wpTm v11))) (
    chk 2103 (let! v12 := deref v4 in let! v13 := deref (wpTm v12) in Ok (negb (has_value (dayValue v13)))) (
    chk 2104 (let! v14 := deref v4 in let! v15 := deref (wpTm v14) in Ok (N.eqb (hourValue v15) 8%N)) (
    chk 2105 (let! v16 := deref v4 in let! v17 := deref (wpTm v16) in Ok (N.eqb (minuteValue v17) 12%N)) (
    step 2107 (deref v1) (fun v18 => 
    step 2107 (deref v2) (fun v19 => 
    step 2107 ((Wp_fromWeatherBeginEndString "E12" v18 v19)) (fun v20 => 
    chk 2111 (Ok (has_value v20)) (
    chk 2113 (let! v21 := deref v20 in Ok (WpQualifier_beq (Wp_qualifier v21) Q_NONE)) (
    chk 2114 (let! v22 := deref v20 in Ok (WpDescriptor_beq (Wp_descriptor v22) D_NONE)) (
    chk 2115 (let! v23 := deref v20 in Ok (N.eqb (N.of_nat (List.length (Wp_weather v23))) 1%N)) (
    chk 2116 (let! v24 := deref v20 in let! v25 := deref (List.nth_error (Wp_weather v24) 0%nat) in Ok (WpWeather_beq v25 W_RAIN)) (
    chk 2117 (let! v26 := deref v20 in Ok (WpEvent_beq (Wp_event v26) Ev_ENDING)) (
    chk 2118 (let! v27 := deref v20 in Ok (has_value (wpTm v27))) (
    chk 2119 (let! v28 := deref v20 in let! v29 := deref (wpTm v28) in Ok (negb (has_value (dayValue v29)))) (
    chk 2120 (let! v30 := deref v20 in let! v31 := deref (wpTm v30) in Ok (N.eqb (hourValue v31) 8%N)) (
    chk 2121 (let! v32 := deref v20 in let! v33 := deref (wpTm v32) in Ok (N.eqb (minuteValue v33) 12%N)) (
    None))))))))))))))))))))))))))))).

Definition t_WeatherPhenomena_fromWeatherBeginEndString_incorrectPrevious : option N :=
    step 2131 ((MetafTime_fromStringDDHHMM "120830")) (fun v1 => 
    chk 2132 (Ok (has_value v1)) (
    step 2134 ((Wp_fromWeatherBeginEndString "RAB0756" MetafTime_default WeatherPhenomena_default)) (fun v2 => 
    chk 2138 (Ok (has_value v2)) (
    chk 2140 (let! v3 := deref v1 in let! v4 := deref v2 in let! v5 := (Wp_fromWeatherBeginEndString "B25" v3 v4) in Ok (has_value v5)) (
    chk 2145 (let! v6 := deref v1 in let! v7 := (Wp_fromWeatherBeginEndString "B25" v6 WeatherPhenomena_default) in Ok (negb (has_value v7))) (
    None)))))).

Definition t_WeatherPhenomena_fromWeatherBeginEndString_incorrectFormat : option N :=
    step 2153 ((MetafTime_fromStringDDHHMM "120830")) (fun v1 => 
    chk 2154 (Ok (has_value v1)) (
    step 2155 (deref v1) (fun v2 => 
    step 2157 ((Wp_fromWeatherBeginEndString "RAB0756" MetafTime_default WeatherPhenomena_default)) (fun v3 => 
    chk 2161 (Ok (has_value v3)) (
    step 2162 (deref v3) (fun v4 => 
    chk 2164 (let! v5 := (Wp_fromWeatherBeginEndString "MIBRB1225" v2 v4) in Ok (negb (has_value v5))) (
    chk 2166 (let! v6 := (Wp_fromWeatherBeginEndString "+RAB1225" v2 v4) in Ok (negb (has_value v6))) (
    chk 2168 (let! v7 := (Wp_fromWeatherBeginEndString "VCSHB1225" v2 v4) in Ok (negb (has_value v7))) (
    chk 2170 (let! v8 := (Wp_fromWeatherBeginEndString "RERAB1225" v2 v4) in Ok (negb (has_value v8))) (
    chk 2173 (let! v9 := (Wp_fromWeatherBeginEndString "ZZB1225" v2 v4) in Ok (negb (has_value v9))) (
    chk 2175 (let! v10 := (Wp_fromWeatherBeginEndString "RAZ1225" v2 v4) in Ok (negb (has_value v10))) (
    chk 2177 (let! v11 := (Wp_fromWeatherBeginEndString "RABB1225" v2 v4) in Ok (negb (has_value v11))) (
    chk 2179 (let! v12 := (Wp_fromWeatherBeginEndString "RA1225" v2 v4) in Ok (negb (has_value v12))) (
    chk 2181 (let! v13 := (Wp_fromWeatherBeginEndString "RAB" v2 v4) in Ok (negb (has_value v13))) (
    chk 2184 (let! v14 := (Wp_fromWeatherBeginEndString "RAB01225" v2 v4) in Ok (negb (has_value v14))) (
    chk 2186 (let! v15 := (Wp_fromWeatherBeginEndString "RAB225" v2 v4) in Ok (negb (has_value v15))) (
    chk 2188 (let! v16 := (Wp_fromWeatherBeginEndString "RAB025" v2 v4) in Ok (negb (has_value v16))) (
    chk 2190 (let! v17 := (Wp_fromWeatherBeginEndString "RAB5" v2 v4) in Ok (negb (has_value v17))) (
    chk 2192 (let! v18 := (Wp_fromWeatherBeginEndString "RAB1A25" v2 v4) in Ok (negb (has_value v18))) (
    chk 2194 (let! v19 := (Wp_fromWeatherBeginEndString "RAB0A" v2 v4) in Ok (negb (has_value v19))) (
    None))))))))))))))))))))).

Definition t_WeatherPhenomena_isValidTrueOther : option N :=
    chk 2204 (let! v1 := (Wp_fromString "MIFG" true) in let! v2 := deref v1 in let! v3 := (Wp_isValid v2) in Ok v3) (
    chk 2205 (let! v4 := (Wp_fromString "PRFG" true) in let! v5 := deref v4 in let! v6 := (Wp_isValid v5) in Ok v6) (
    chk 2206 (let! v7 := (Wp_fromString "BCFG" true) in let! v8 := deref v7 in let! v9 := (Wp_isValid v8) in Ok v9) (
    chk 2207 (let! v10 := (Wp_fromString "FG" true) in let! v11 := deref v10 in let! v12 := (Wp_isValid v11) in Ok v12) (
    chk 2208 (let! v13 := (Wp_fromString "DRDU" true) in let! v14 := deref v13 in let! v15 := (Wp_isValid v14) in Ok v15) (
    chk 2209 (let! v16 := (Wp_fromString "BLDU" true) in let! v17 := deref v16 in let! v18 := (Wp_isValid v17) in Ok v18) (
    chk 2210 (let! v19 := (Wp_fromString "DU" true) in let! v20 := deref v19 in let! v21 := (Wp_isValid v20) in Ok v21) (
    chk 2211 (let! v22 := (Wp_fromString "DRSA" true) in let! v23 := deref v22 in let! v24 := (Wp_isValid v23) in Ok v24) (
    chk 2212 (let! v25 := (Wp_fromString "BLSA" true) in let! v26 := deref v25 in let! v27 := (Wp_isValid v26) in Ok v27) (
    chk 2213 (let! v28 := (Wp_fromString "SA" true) in let! v29 := deref v28 in let! v30 := (Wp_isValid v29) in Ok v30) (
    chk 2214 (let! v31 := (Wp_fromString "DRSN" true) in let! v32 := deref v31 in let! v33 := (Wp_isValid v32) in Ok v33) (
    chk 2215 (let! v34 := (Wp_fromString "BLSN" true) in let! v35 := deref v34 in let! v36 := (Wp_isValid v35) in Ok v36) (
    chk 2216 (let! v37 := (Wp_fromString "BLPY" true) in let! v38 := deref v37 in let! v39 := (Wp_isValid v38) in Ok v39) (
    chk 2217 (let! v40 := (Wp_fromString "TS" true) in let! v41 := deref v40 in let! v42 := (Wp_isValid v41) in Ok v42) (
    chk 2218 (let! v43 := (Wp_fromString "IC" true) in let! v44 := deref v43 in let! v45 := (Wp_isValid v44) in Ok v45) (
    chk 2219 (let! v46 := (Wp_fromString "BR" true) in let! v47 := deref v46 in let! v48 := (Wp_isValid v47) in Ok v48) (
    chk 2220 (let! v49 := (Wp_fromString "FU" true) in let! v50 := deref v49 in let! v51 := (Wp_isValid v50) in Ok v51) (
    chk 2221 (let! v52 := (Wp_fromString "VA" true) in let! v53 := deref v52 in let! v54 := (Wp_isValid v53) in Ok v54) (
    chk 2222 (let! v55 := (Wp_fromString "HZ" true) in let! v56 := deref v55 in let! v57 := (Wp_isValid v56) in Ok v57) (
    chk 2223 (let! v58 := (Wp_fromString "PO" true) in let! v59 := deref v58 in let! v60 := (Wp_isValid v59) in Ok v60) (
    chk 2224 (let! v61 := (Wp_fromString "SQ" true) in let! v62 := deref v61 in let! v63 := (Wp_isValid v62) in Ok v63) (
    chk 2225 (let! v64 := (Wp_fromString "FC" true) in let! v65 := deref v64 in let! v66 := (Wp_isValid v65) in Ok v66) (
    chk 2226 (let! v67 := (Wp_fromString "DS" true) in let! v68 := deref v67 in let! v69 := (Wp_isValid v68) in Ok v69) (
    chk 2227 (let! v70 := (Wp_fromString "SS" true) in let! v71 := deref v70 in let! v72 := (Wp_isValid v71) in Ok v72) (
    chk 2228 (let! v73 := (Wp_fromString "DSSS" true) in let! v74 := deref v73 in let! v75 := (Wp_isValid v74) in Ok v75) (
    chk 2229 (let! v76 := (Wp_fromString "SSDS" true) in let! v77 := deref v76 in let! v78 := (Wp_isValid v77) in Ok v78) (
    chk 2230 (let! v79 := (Wp_fromString "+FC" true) in let! v80 := deref v79 in let! v81 := (Wp_isValid v80) in Ok v81) (
    chk 2231 (let! v82 := (Wp_fromString "+DS" true) in let! v83 := deref v82 in let! v84 := (Wp_isValid v83) in Ok v84) (
    chk 2232 (let! v85 := (Wp_fromString "+SS" true) in let! v86 := deref v85 in let! v87 := (Wp_isValid v86) in Ok v87) (
    chk 2233 (let! v88 := (Wp_fromString "+DSSS" true) in let! v89 := deref v88 in let! v90 := (Wp_isValid v89) in Ok v90) (
    chk 2234 (let! v91 := (Wp_fromString "+SSDS" true) in let! v92 := deref v91 in let! v93 := (Wp_isValid v92) in Ok v93) (
    chk 2235 (let! v94 := (Wp_fromString "VCSH" true) in let! v95 := deref v94 in let! v96 := (Wp_isValid v95) in Ok v96) (
    chk 2236 (let! v97 := (Wp_fromString "VCTS" true) in let! v98 := deref v97 in let! v99 := (Wp_isValid v98) in Ok v99) (
    chk 2237 (let! v100 := (Wp_fromString "VCFG" true) in let! v101 := deref v100 in let! v102 := (Wp_isValid v101) in Ok v102) (
    chk 2238 (let! v103 := (Wp_fromString "VCVA" true) in let! v104 := deref v103 in let! v105 := (Wp_isValid v104) in Ok v105) (
    chk 2239 (let! v106 := (Wp_fromString "VCFC" true) in let! v107 := deref v106 in let! v108 := (Wp_isValid v107) in Ok v108) (
    chk 2240 (let! v109 := (Wp_fromString "VCPO" true) in let! v110 := deref v109 in let! v111 := (Wp_isValid v110) in Ok v111) (
    chk 2241 (let! v112 := (Wp_fromString "VCBLDU" true) in let! v113 := deref v112 in let! v114 := (Wp_isValid v113) in Ok v114) (
    chk 2242 (let! v115 := (Wp_fromString "VCBLSA" true) in let! v116 := deref v115 in let! v117 := (Wp_isValid v116) in Ok v117) (
    chk 2243 (let! v118 := (Wp_fromString "VCBLSN" true) in let! v119 := deref v118 in let! v120 := (Wp_isValid v119) in Ok v120) (
    chk 2244 (let! v121 := (Wp_fromString "VCDS" true) in let! v122 := deref v121 in let! v123 := (Wp_isValid v122) in Ok v123) (
    chk 2245 (let! v124 := (Wp_fromString "VCSS" true) in let! v125 := deref v124 in let! v126 := (Wp_isValid v125) in Ok v126) (
    chk 2246 (let! v127 := (Wp_fromString "RA" true) in let! v128 := deref v127 in let! v129 := (Wp_isValid v128) in Ok v129) (
    chk 2247 (let! v130 := (Wp_fromString "SN" true) in let! v131 := deref v130 in let! v132 := (Wp_isValid v131) in Ok v132) (
    chk 2248 (let! v133 := (Wp_fromString "DZ" true) in let! v134 := deref v133 in let! v135 := (Wp_isValid v134) in Ok v135) (
    chk 2249 (let! v136 := (Wp_fromString "SG" true) in let! v137 := deref v136 in let! v138 := (Wp_isValid v137) in Ok v138) (
    chk 2250 (let! v139 := (Wp_fromString "PL" true) in let! v140 := deref v139 in let! v141 := (Wp_isValid v140) in Ok v141) (
    chk 2251 (let! v142 := (Wp_fromString "GR" true) in let! v143 := deref v142 in let! v144 := (Wp_isValid v143) in Ok v144) (
    chk 2252 (let! v145 := (Wp_fromString "GS" true) in let! v146 := deref v145 in let! v147 := (Wp_isValid v146) in Ok v147) (
    chk 2253 (let! v148 := (Wp_fromString "UP" true) in let! v149 := deref v148 in let! v150 := (Wp_isValid v149) in Ok v150) (
    chk 2254 (let! v151 := (Wp_fromString "+TSRAGR" true) in let! v152 := deref v151 in let! v153 := (Wp_isValid v152) in Ok v153) (
    chk 2255 (let! v154 := (Wp_fromString "-SHRAPL" true) in let! v155 := deref v154 in let! v156 := (Wp_isValid v155) in Ok v156) (
    chk 2256 (let! v157 := (Wp_fromString "SHUP" true) in let! v158 := deref v157 in let! v159 := (Wp_isValid v158) in Ok v159) (
    chk 2257 (let! v160 := (Wp_fromString "TSUP" true) in let! v161 := deref v160 in let! v162 := (Wp_isValid v161) in Ok v162) (
    chk 2258 (let! v163 := (Wp_fromString "RERAPL" true) in let! v164 := deref v163 in let! v165 := (Wp_isValid v164) in Ok v165) (
    None))))))))))))))))))))))))))))))))))))))))))))))))))))))).

Definition t_WeatherPhenomena_isValidFalseEmpty : option N :=
    chk 2262 (let! v1 := (Wp_isValid WeatherPhenomena_default) in Ok (negb v1)) (
    None).

Example tests_weatherphenomena_pass : failures
  [("WeatherPhenomena_fromString_obscurations_descriptorMI", t_WeatherPhenomena_fromString_obscurations_descriptorMI);
   ("WeatherPhenomena_fromString_obscurations_descriptorMI_incorrect", t_WeatherPhenomena_fromString_obscurations_descriptorMI_incorrect);
   ("WeatherPhenomena_fromString_obscurations_descriptorPR", t_WeatherPhenomena_fromString_obscurations_descriptorPR);
   ("WeatherPhenomena_fromString_obscurations_descriptorPR_incorrect", t_WeatherPhenomena_fromString_obscurations_descriptorPR_incorrect);
   ("WeatherPhenomena_fromString_obscurations_descriptorBC", t_WeatherPhenomena_fromString_obscurations_descriptorBC);
   ("WeatherPhenomena_fromString_obscurations_descriptorBC_incorrect", t_WeatherPhenomena_fromString_obscurations_descriptorBC_incorrect);
   ("WeatherPhenomena_fromString_obscurations_descriptorDR", t_WeatherPhenomena_fromString_obscurations_descriptorDR);
   ("WeatherPhenomena_fromString_obscurations_descriptorDR_incorrect", t_WeatherPhenomena_fromString_obscurations_descriptorDR_incorrect);
   ("WeatherPhenomena_fromString_obscurations_descriptorBL", t_WeatherPhenomena_fromString_obscurations_descriptorBL);
   ("WeatherPhenomena_fromString_obscurations_descriptorBL_qualifierVC", t_WeatherPhenomena_fromString_obscurations_descriptorBL_qualifierVC);
   ("WeatherPhenomena_fromString_obscurations_descriptorBL_incorrect", t_WeatherPhenomena_fromString_obscurations_descriptorBL_incorrect);
   ("WeatherPhenomena_fromString_obscurations_descriptorFZ", t_WeatherPhenomena_fromString_obscurations_descriptorFZ);
   ("WeatherPhenomena_fromString_obscurations_descriptorFZ_incorrect", t_WeatherPhenomena_fromString_obscurations_descriptorFZ_incorrect);
   ("WeatherPhenomena_fromString_obscurations_BR", t_WeatherPhenomena_fromString_obscurations_BR);
   ("WeatherPhenomena_fromString_obscurations_FG", t_WeatherPhenomena_fromString_obscurations_FG);
   ("WeatherPhenomena_fromString_obscurations_FU", t_WeatherPhenomena_fromString_obscurations_FU);
   ("WeatherPhenomena_fromString_obscurations_VA", t_WeatherPhenomena_fromString_obscurations_VA);
   ("WeatherPhenomena_fromString_obscurations_DU", t_WeatherPhenomena_fromString_obscurations_DU);
   ("WeatherPhenomena_fromString_obscurations_SA", t_WeatherPhenomena_fromString_obscurations_SA);
   ("WeatherPhenomena_fromString_obscurations_HZ", t_WeatherPhenomena_fromString_obscurations_HZ);
   ("WeatherPhenomena_fromString_obscurations_qualifier_VC", t_WeatherPhenomena_fromString_obscurations_qualifier_VC);
   ("WeatherPhenomena_fromString_obscurations_incorrect", t_WeatherPhenomena_fromString_obscurations_incorrect);
   ("WeatherPhenomena_fromString_other_descriptorTS", t_WeatherPhenomena_fromString_other_descriptorTS);
   ("WeatherPhenomena_fromString_other_descriptorTS_qualifierVC", t_WeatherPhenomena_fromString_other_descriptorTS_qualifierVC);
   ("WeatherPhenomena_fromString_obscurations_descriptor_TS_incorrect", t_WeatherPhenomena_fromString_obscurations_descriptor_TS_incorrect);
   ("WeatherPhenomena_fromString_other_descriptorSH_qualifierVC", t_WeatherPhenomena_fromString_other_descriptorSH_qualifierVC);
   ("WeatherPhenomena_fromString_obscurations_descriptorSH_incorrect", t_WeatherPhenomena_fromString_obscurations_descriptorSH_incorrect);
   ("WeatherPhenomena_fromString_other_PO", t_WeatherPhenomena_fromString_other_PO);
   ("WeatherPhenomena_fromString_other_SQ", t_WeatherPhenomena_fromString_other_SQ);
   ("WeatherPhenomena_fromString_other_FC", t_WeatherPhenomena_fromString_other_FC);
   ("WeatherPhenomena_fromString_other_qualifier_VC", t_WeatherPhenomena_fromString_other_qualifier_VC);
   ("WeatherPhenomena_fromString_other_incorrect", t_WeatherPhenomena_fromString_other_incorrect);
   ("WeatherPhenomena_fromString_other_DS", t_WeatherPhenomena_fromString_other_DS);
   ("WeatherPhenomena_fromString_other_SS", t_WeatherPhenomena_fromString_other_SS);
   ("WeatherPhenomena_fromString_other_DSSS", t_WeatherPhenomena_fromString_other_DSSS);
   ("WeatherPhenomena_fromString_other_SSDS", t_WeatherPhenomena_fromString_other_SSDS);
   ("WeatherPhenomena_fromString_other_DS_SS_incorrect", t_WeatherPhenomena_fromString_other_DS_SS_incorrect);
   ("WeatherPhenomena_fromString_DS_SS_qualifier_vc", t_WeatherPhenomena_fromString_DS_SS_qualifier_vc);
   ("WeatherPhenomena_fromString_precipitation_IC", t_WeatherPhenomena_fromString_precipitation_IC);
   ("WeatherPhenomena_fromString_fromString_precipitation_IC_incorrect", t_WeatherPhenomena_fromString_fromString_precipitation_IC_incorrect);
   ("WeatherPhenomena_fromString_precipitation_DZ", t_WeatherPhenomena_fromString_precipitation_DZ);
   ("WeatherPhenomena_fromString_precipitation_RA", t_WeatherPhenomena_fromString_precipitation_RA);
   ("WeatherPhenomena_fromString_precipitation_SN", t_WeatherPhenomena_fromString_precipitation_SN);
   ("WeatherPhenomena_fromString_precipitation_SG", t_WeatherPhenomena_fromString_precipitation_SG);
   ("WeatherPhenomena_fromString_precipitation_PL", t_WeatherPhenomena_fromString_precipitation_PL);
   ("WeatherPhenomena_fromString_precipitation_GR", t_WeatherPhenomena_fromString_precipitation_GR);
   ("WeatherPhenomena_fromString_precipitation_GS", t_WeatherPhenomena_fromString_precipitation_GS);
   ("WeatherPhenomena_fromString_precipitation_UP", t_WeatherPhenomena_fromString_precipitation_UP);
   ("WeatherPhenomena_fromString_precipitation_mixed", t_WeatherPhenomena_fromString_precipitation_mixed);
   ("WeatherPhenomena_fromString_precipitation_mixed_too_long", t_WeatherPhenomena_fromString_precipitation_mixed_too_long);
   ("WeatherPhenomena_fromString_precipitation_mixed_duplicate", t_WeatherPhenomena_fromString_precipitation_mixed_duplicate);
   ("WeatherPhenomena_fromString_precipitation_mixed_incorrect", t_WeatherPhenomena_fromString_precipitation_mixed_incorrect);
   ("WeatherPhenomena_fromString_precipitation_mixed_incorrect_descriptor", t_WeatherPhenomena_fromString_precipitation_mixed_incorrect_descriptor);
   ("WeatherPhenomena_fromString_precipitation_mixed_qualifier_moderate", t_WeatherPhenomena_fromString_precipitation_mixed_qualifier_moderate);
   ("WeatherPhenomena_fromString_precipitation_mixed_qualifier_light", t_WeatherPhenomena_fromString_precipitation_mixed_qualifier_light);
   ("WeatherPhenomena_fromString_precipitation_mixed_qualifier_heavy", t_WeatherPhenomena_fromString_precipitation_mixed_qualifier_heavy);
   ("WeatherPhenomena_fromString_precipitation_mixed_qualifier_recent", t_WeatherPhenomena_fromString_precipitation_mixed_qualifier_recent);
   ("WeatherPhenomena_fromString_precipitation_descriptor_ts", t_WeatherPhenomena_fromString_precipitation_descriptor_ts);
   ("WeatherPhenomena_fromString_precipitation_descriptor_ts_mixed", t_WeatherPhenomena_fromString_precipitation_descriptor_ts_mixed);
   ("WeatherPhenomena_fromString_precipitation_descriptor_ts_qualifier", t_WeatherPhenomena_fromString_precipitation_descriptor_ts_qualifier);
   ("WeatherPhenomena_fromString_precipitation_descriptor_ts_mixed_qualifier", t_WeatherPhenomena_fromString_precipitation_descriptor_ts_mixed_qualifier);
   ("WeatherPhenomena_fromString_precipitation_descriptor_sh", t_WeatherPhenomena_fromString_precipitation_descriptor_sh);
   ("WeatherPhenomena_fromString_precipitation_descriptorSH_incorrect", t_WeatherPhenomena_fromString_precipitation_descriptorSH_incorrect);
   ("WeatherPhenomena_fromString_precipitation_descriptorSH_mixed", t_WeatherPhenomena_fromString_precipitation_descriptorSH_mixed);
   ("WeatherPhenomena_fromString_precipitation_descriptor_sh_qualifier", t_WeatherPhenomena_fromString_precipitation_descriptor_sh_qualifier);
   ("WeatherPhenomena_fromString_precipitation_descriptor_sh_mixed_qualifier", t_WeatherPhenomena_fromString_precipitation_descriptor_sh_mixed_qualifier);
   ("WeatherPhenomena_fromString_precipitation_descriptor_fz", t_WeatherPhenomena_fromString_precipitation_descriptor_fz);
   ("WeatherPhenomena_fromString_precipitation_descriptor_fz_multpiple", t_WeatherPhenomena_fromString_precipitation_descriptor_fz_multpiple);
   ("WeatherPhenomena_fromString_precipitation_descriptor_fz_incorrect", t_WeatherPhenomena_fromString_precipitation_descriptor_fz_incorrect);
   ("WeatherPhenomena_fromString_precipitation_descriptor_fz_qualifier", t_WeatherPhenomena_fromString_precipitation_descriptor_fz_qualifier);
   ("WeatherPhenomena_fromString_precipitation_descriptor_fz_mixed_qualifier", t_WeatherPhenomena_fromString_precipitation_descriptor_fz_mixed_qualifier);
   ("WeatherPhenomena_fromString_precipitation_descriptor_qualifier_incorrect", t_WeatherPhenomena_fromString_precipitation_descriptor_qualifier_incorrect);
   ("WeatherPhenomena_fromWeatherBeginEndString_first_event", t_WeatherPhenomena_fromWeatherBeginEndString_first_event);
   ("WeatherPhenomena_fromWeatherBeginEndString_subsequent", t_WeatherPhenomena_fromWeatherBeginEndString_subsequent);
   ("WeatherPhenomena_fromWeatherBeginEndString_incorrectPrevious", t_WeatherPhenomena_fromWeatherBeginEndString_incorrectPrevious);
   ("WeatherPhenomena_fromWeatherBeginEndString_incorrectFormat", t_WeatherPhenomena_fromWeatherBeginEndString_incorrectFormat);
   ("WeatherPhenomena_isValidTrueOther", t_WeatherPhenomena_isValidTrueOther);
   ("WeatherPhenomena_isValidFalseEmpty", t_WeatherPhenomena_isValidFalseEmpty)] = [].
Proof. vm_compute. reflexivity. Qed.
